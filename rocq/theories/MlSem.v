(** Interpreter of the Python subset in which interpolation/multilinear is written.  Definitions only.  This
    file models no function of /repo; it gives the meaning of the texts SrcFungen.v and SrcMlinterp.v.

    numba runs a call of an overloaded function in two stages.  When the call is compiled, the function
    registered with @overload is run on the types of the arguments; it returns a function, either one of its
    inner definitions or one that it made with [eval] from a text it wrote.  That function is then run on the
    arguments.  The first part of this file interprets the first stage, the second part the second.

    What it leaves out: a function returned by the first stage uses its arguments, the definitions of the modules
    and the library only (no variable of the function that made it), [eval(code, globals())] binds the names
    locally, arrays have no other name than the one they are assigned to, numbers are ints and floats, exceptions
    are error values.  Anything outside of the subset is [Err TypeErr].  The modules of the package share one
    namespace. *)
From Coq Require Import ZArith List Bool Ascii String.
From Coq.Strings Require Import Byte.
From Verif Require Import Base SplineModel PySyntax TempitaModel StrSem.
Import ListNotations.
Open Scope string_scope.
Open Scope list_scope.
Open Scope Z_scope.

(** ** Types.  [Array(float64, n)], tuples of types, functions. *)
Inductive ty := TyInt | TyFlt | TyArr (n : Z) | TyTup (l : list ty) | TyFun.
Fixpoint ty_eqb (a b : ty) : bool :=
  let all := fix all (l m : list ty) : bool :=
    match l, m with [], [] => true | x :: l, y :: m => ty_eqb x y && all l m | _, _ => false end in
  match a, b with
  | TyInt, TyInt | TyFlt, TyFlt | TyFun, TyFun => true
  | TyArr n, TyArr m => n =? m
  | TyTup l, TyTup m => all l m
  | _, _ => false
  end.
(** A UniTuple: not empty, all of one type. *)
Definition uniform (l : list ty) : bool := match l with [] => false | t :: l => forallb (ty_eqb t) l end.

(** ** First stage *)
Inductive sv :=
| CI (z : Z) | CS (s : string) | CB (b : bool) | CNone | CFlt
| CT (l : list sv) | CL (l : list sv) | CSet (l : list sv) | CD (l : list (string * sv))
| CTy (t : ty) | CCls (s : string) | CCode (p : list stmt)
| CFun (self : string) (ps : list (string * option expr)) (b : list stmt) (E : list (string * sv))
| CNames (l : list string)                      (* what namedtuple returns *)
| CRec (l : list (string * sv)).
Definition senv := list (string * sv).
Definition look {A} (E : list (string * A)) (x : string) : option A :=
  match find (fun p => String.eqb x (fst p)) E with Some (_, v) => Some v | None => None end.

Definition show (v : sv) : string := match v with CI z => decZ z | CS s => s | _ => "?" end.
Fixpoint sveq (a b : sv) : bool :=
  match a, b with
  | CI x, CI y => x =? y
  | CS x, CS y => String.eqb x y
  | CB x, CB y => Bool.eqb x y
  | CTy x, CTy y => ty_eqb x y
  | CSet l, CSet m => forallb (fun x => existsb (sveq x) m) l && forallb (fun y => existsb (fun x => sveq x y) l) m
  | _, _ => false
  end.
Fixpoint undup (l : list sv) : list sv :=
  match l with [] => [] | a :: r => if existsb (sveq a) r then undup r else a :: undup r end.
Definition sitems (v : sv) : res (list sv) := match v with CT l | CL l | CSet l => Ok l | _ => Err TypeErr end.
Definition struth (v : sv) : res bool := match v with CB b => Ok b | _ => Err TypeErr end.
Fixpoint sstrings (l : list sv) : res (list string) :=
  match l with [] => Ok [] | CS s :: r => q <- sstrings r ;; Ok (s :: q) | _ => Err TypeErr end.
Fixpoint sints (l : list sv) : res (list Z) :=
  match l with [] => Ok [] | CI z :: r => q <- sints r ;; Ok (z :: q) | _ => Err TypeErr end.
(** [s.format(args)], with the field [{}] only. *)
Fixpoint sformat (s : string) (args : list sv) : res string :=
  match s with
  | "" => Ok ""
  | String "{" (String "}" r) =>
      match args with a :: args => q <- sformat r args ;; Ok (show a ++ q)%string | [] => Err IndexErr end
  | String c r => q <- sformat r args ;; Ok (String c q)
  end.
(** An f-string: pieces of text (false) and of expressions (true); [k]: braces open in the expression. *)
Fixpoint pieces (inside : bool) (k : nat) (acc s : string) : list (bool * string) :=
  match s with
  | "" => [(inside, rev_str acc)]
  | String c r =>
      if inside then
        if Ascii.eqb c "}" then
          match k with O => (true, rev_str acc) :: pieces false 0 "" r | S k => pieces true k (String c acc) r end
        else pieces true (if Ascii.eqb c "{" then S k else k) (String c acc) r
      else if Ascii.eqb c "{" then (false, rev_str acc) :: pieces true 0 "" r else pieces false 0 (String c acc) r
  end.
(** [numpy.array(l).reshape((2, .., 2))]: nested lists. *)
Fixpoint halves (d : nat) (l : list sv) : res sv :=
  match d with
  | O => match l with [v] => Ok v | _ => Err ValueErr end
  | S d => let k := Nat.pow 2 d in a <- halves d (firstn k l) ;; b <- halves d (skipn k l) ;; Ok (CL [a; b])
  end.
Fixpoint product_ (l : list (list sv)) : list (list sv) :=
  match l with [] => [[]] | a :: l => List.concat (map (fun x => map (cons x) (product_ l)) a) end.
Definition styp (v : sv) : res ty := match v with CI _ => Ok TyInt | CFlt => Ok TyFlt | _ => Err TypeErr end.

Definition s_arith (o : string) (a b : sv) : res sv :=
  match a, b with
  | CI x, CI y => if String.eqb o "+" then Ok (CI (x + y)) else if String.eqb o "-" then Ok (CI (x - y)) else Err TypeErr
  | CS x, CS y => if String.eqb o "+" then Ok (CS (x ++ y)%string) else Err TypeErr
  | CL x, CL y => if String.eqb o "+" then Ok (CL (x ++ y)) else Err TypeErr
  | CT x, CI y => if String.eqb o "*" then Ok (CT (List.concat (repeat x (Z.to_nat y)))) else Err TypeErr
  | _, _ => Err TypeErr
  end.
Definition s_compare (o : string) (a b : sv) : res bool :=
  if String.eqb o "==" then Ok (sveq a b)
  else if String.eqb o "!=" then Ok (negb (sveq a b))
  else if String.eqb o "in" then l <- sitems b ;; Ok (existsb (sveq a) l)
  else match a, b with
       | CI x, CI y => if String.eqb o ">" then Ok (y <? x) else if String.eqb o ">=" then Ok (y <=? x)
                       else if String.eqb o "<" then Ok (x <? y) else if String.eqb o "<=" then Ok (x <=? y) else Err TypeErr
       | _, _ => Err TypeErr
       end.
Definition s_index (v i : sv) : res sv :=
  match v, i with
  | CT l, CI z | CL l, CI z => lget l (if z <? 0 then z + zlen l else z)
  | CD l, CS s => match look l s with Some v => Ok v | None => Err IndexErr end
  | _, _ => Err TypeErr
  end.
(** [v[k:]] *)
Definition s_from (v : sv) (k : Z) : res sv :=
  if k <? 0 then Err TypeErr
  else match v with CT l => Ok (CT (skipn (Z.to_nat k) l)) | CL l => Ok (CL (skipn (Z.to_nat k) l)) | _ => Err TypeErr end.
(** Attributes of types and of named tuples. *)
Definition s_attr (v : sv) (s : string) : res sv :=
  match v with
  | CTy (TyArr n) => if String.eqb s "ndim" then Ok (CI n) else Err TypeErr
  | CTy (TyTup l) => if String.eqb s "count" then Ok (CI (zlen l)) else if String.eqb s "types" then Ok (CT (map CTy l)) else Err TypeErr
  | CRec l => match look l s with Some v => Ok v | None => Err TypeErr end
  | _ => Err TypeErr
  end.
(** [isinstance(v, c)]; the classes are those compat.py 7-8 imports from numba, and [str]. *)
Definition classes : list string := ["Array"; "Float"; "Integer"; "Tuple"; "UniTuple"; "str"].
Definition is_a (v : sv) (c : string) : bool :=
  match v with
  | CTy (TyArr _) => String.eqb c "Array"
  | CTy TyFlt => String.eqb c "Float"
  | CTy TyInt => String.eqb c "Integer"
  | CTy (TyTup l) => if uniform l then String.eqb c "UniTuple" else String.eqb c "Tuple"
  | CS _ => String.eqb c "str"
  | _ => false
  end.
Definition s_instance (v c : sv) : res sv :=
  match c with
  | CCls s => Ok (CB (is_a v s))
  | CT l => ss <- mapM (fun x => match x with CCls s => Ok s | _ => Err TypeErr end) l ;; Ok (CB (existsb (is_a v) ss))
  | _ => Err TypeErr
  end.
(** [None]: not a library function. *)
Definition s_library (f : string) (l : list sv) : option (res sv) :=
  if String.eqb f "isinstance" then Some (match l with [v; c] => s_instance v c | _ => Err TypeErr end)
  else if String.eqb f "str" then Some (match l with [v] => Ok (CS (show v)) | _ => Err TypeErr end)
  else if String.eqb f "len" then
    Some (match l with [CTy (TyTup r)] => Ok (CI (zlen r)) | [v] => r <- sitems v ;; Ok (CI (zlen r)) | _ => Err TypeErr end)
  else if String.eqb f "range" then Some (match l with [CI n] => Ok (CL (map CI (zrange n))) | _ => Err TypeErr end)
  else if String.eqb f "set" then Some (match l with [v] => r <- sitems v ;; Ok (CSet (undup r)) | _ => Err TypeErr end)
  else if String.eqb f "max" then
    Some (match l with
          | [v] => r <- sitems v ;; r <- sints r ;; match r with z :: r => Ok (CI (fold_left Z.max r z)) | [] => Err ValueErr end
          | _ => Err TypeErr end)
  else if String.eqb f "dict" then Some (match l with [] => Ok (CD []) | _ => Err TypeErr end)
  else if String.eqb f "print" then Some (Ok CNone)
  else if String.eqb f "product" then Some (r <- mapM sitems l ;; Ok (CL (map CT (product_ r))))
  else if String.eqb f "namedtuple" then
    Some (match l with [CS _; v] => r <- sitems v ;; r <- sstrings r ;; Ok (CNames r) | _ => Err TypeErr end)
  else if String.eqb f "str.join" then
    Some (match l with [CS s; v] => r <- sitems v ;; r <- sstrings r ;; Ok (CS (StrSem.join s r)) | _ => Err TypeErr end)
  else if String.eqb f "np.array" then Some (match l with [CL r] => Ok (CL r) | _ => Err TypeErr end)
  else if String.eqb f "numba.typeof" then Some (match l with [CT r] => ts <- mapM styp r ;; Ok (CTy (TyTup ts)) | _ => Err TypeErr end)
  else if String.eqb f "ast.parse" then
    Some (match l with
          | [CS s] => match parse_bytes (Nat.pow 2 10) (list_byte_of_string s) with Some p => Ok (CCode p) | None => Err ValueErr end
          | _ => Err TypeErr end)
  else if String.eqb f "compile" then Some (match l with [CCode p; CS _; CS _] => Ok (CCode p) | _ => Err TypeErr end)
  else None.
Definition s_method (v : sv) (m : string) (l : list sv) : res sv :=
  match v with
  | CS s => if String.eqb m "format" then r <- sformat s l ;; Ok (CS r) else Err TypeErr
  | CL r =>
      if String.eqb m "index" then
        match l with
        | [x] => (fix go (r : list sv) (k : Z) := match r with [] => Err ValueErr | y :: r => if sveq x y then Ok (CI k) else go r (k + 1) end) r 0
        | _ => Err TypeErr
        end
      else if String.eqb m "reshape" then
        match l with [CT sh] => if forallb (sveq (CI 2)) sh then halves (List.length sh) r else Err TypeErr | _ => Err TypeErr end
      else Err TypeErr
  | _ => Err TypeErr
  end.
(** The name under which a library function or a global is called. *)
Definition fun_name (f : expr) : option string :=
  match f with
  | EName x => Some x
  | EAttr (EName x) m => if existsb (String.eqb x) ["str"; "np"; "numba"; "ast"]%string then Some (x ++ "." ++ m)%string else None
  | _ => None
  end.
(** [eval(e, d)] *)
Definition eval_of (e : expr) : option (expr * expr) :=
  match e with ECall (EName f) [a; d] [] => if String.eqb f "eval" then Some (a, d) else None | _ => None end.
Fixpoint defs (p : list stmt) : senv :=
  match p with [] => [] | SDef f ps b :: p => (f, CFun f ps b []) :: defs p | _ :: p => defs p end.
Definition names2 (l : list string) (vs : list sv) : res sv :=
  if Nat.eqb (List.length l) (List.length vs) then Ok (CRec (combine l vs)) else Err TypeErr.

Section Stage1.
Variable P : list stmt.
(** The last binding of a name in the modules. *)
Fixpoint binding (p : list stmt) (x : string) (acc : option (stmt)) : option stmt :=
  match p with
  | [] => acc
  | s :: p =>
      binding p x
        match s with
        | SDef f _ _ => if String.eqb f x then Some s else acc
        | SDeco _ (SDef f ps b) => if String.eqb f x then Some (SDef f ps b) else acc
        | SAssign [EName y] _ => if String.eqb y x then Some s else acc
        | _ => acc
        end
  end.

Fixpoint sev (n : nat) (E : senv) (e : expr) {struct n} : res sv :=
  match n with
  | O => Err FuelErr
  | S n =>
      match e with
      | EName x =>
          match look E x with
          | Some v => Ok v
          | None =>
              match binding P x None with
              | Some (SDef f ps b) => Ok (CFun f ps b [])
              | Some (SAssign _ e) => sev n [] e
              | _ => if existsb (String.eqb x) classes then Ok (CCls x) else Err NameErr
              end
          end
      | EInt z => Ok (CI z)
      | EFlt _ _ => Ok CFlt
      | EStr s => Ok (CS (unescape s))
      | EFStr s =>
          l <- mapM (fun p : bool * string => if fst p then e <- read_expr (snd p) ;; v <- sev n E e ;; Ok (show v) else Ok (snd p))
                    (pieces false 0 "" (unescape s)) ;;
          Ok (CS (StrSem.join "" l))
      | ENone => Ok CNone
      | ETrue => Ok (CB true)
      | EFalse => Ok (CB false)
      | ENeg (EInt z) => Ok (CI (- z))
      | EBin o a b => x <- sev n E a ;; y <- sev n E b ;; s_arith o x y
      | ECmp a [(o, b)] => x <- sev n E a ;; y <- sev n E b ;; r <- s_compare o x y ;; Ok (CB r)
      | EAnd a b => x <- sev n E a ;; t <- struth x ;; if t : bool then sev n E b else Ok x
      | EIfE c a b => x <- sev n E c ;; t <- struth x ;; if t : bool then sev n E a else sev n E b
      | ETup l => vs <- mapM (sev n E) l ;; Ok (CT vs)
      | EList l => vs <- mapM (sev n E) l ;; Ok (CL vs)
      | EDict [] => Ok (CD [])
      | EComp e (EName x) it None =>
          v <- sev n E it ;; l <- sitems v ;; vs <- mapM (fun a => sev n ((x, a) :: E) e) l ;; Ok (CL vs)
      | ELam ps e => Ok (CFun "" (map (fun x => (x, None)) ps) [SRet (Some e)] E)
      | ESub a [ESlice (Some k) None None] => v <- sev n E a ;; j <- sev n E k ;; match j with CI z => s_from v z | _ => Err TypeErr end
      | ESub a [i] => v <- sev n E a ;; j <- sev n E i ;; s_index v j
      | EAttr a s => v <- sev n E a ;; s_attr v s
      | ECall f args [] =>
          vs <- sevs n E args ;;
          match match fun_name f with Some s => s_library s vs | None => None end with
          | Some r => r
          | None =>
              match match f with EAttr o m => Some (o, m) | _ => None end with
              | Some (o, m) => v <- sev n E o ;; s_method v m vs
              | None => g <- sev n E f ;; sapply n g vs
              end
          end
      | _ => Err TypeErr
      end
  end
with sevs (n : nat) (E : senv) (l : list expr) {struct n} : res (list sv) :=
  match n with
  | O => Err FuelErr
  | S n =>
      match l with
      | [] => Ok []
      | EStar a :: r => v <- sev n E a ;; l <- sitems v ;; vs <- sevs n E r ;; Ok (l ++ vs)
      | a :: r => v <- sev n E a ;; vs <- sevs n E r ;; Ok (v :: vs)
      end
  end
with sapply (n : nat) (g : sv) (vs : list sv) {struct n} : res sv :=
  match n with
  | O => Err FuelErr
  | S n =>
      match g with
      | CNames l => names2 l vs
      | CFun self ps b E =>
          E <- (fix bind (ps : list (string * option expr)) (vs : list sv) : res senv :=
                  match ps with
                  | [] => match vs with [] => Ok ((self, g) :: E) | _ => Err TypeErr end
                  | (x, d) :: ps =>
                      match star x with
                      | Some y => Ok ((y, CT vs) :: (self, g) :: E)
                      | None =>
                          match vs with
                          | v :: vs => E <- bind ps vs ;; Ok ((x, v) :: E)
                          | [] => v <- (match d with Some e => sev n [] e | None => Err TypeErr end) ;; E <- bind ps [] ;; Ok ((x, v) :: E)
                          end
                      end
                  end) ps vs ;;
          '(r, _) <- sex n E b ;;
          match r with Some v => Ok v | None => Ok CNone end
      | _ => Err TypeErr
      end
  end
(** A block: the value returned, if any, and the variables. *)
with sex (n : nat) (E : senv) (b : list stmt) {struct n} : res (option sv * senv) :=
  match n with
  | O => Err FuelErr
  | S n =>
      match b with
      | [] => Ok (None, E)
      | s :: b =>
          '(r, E) <- (match s with
                      | SAssign [EName x] e =>
                          v <- sev n E e ;;
                          Ok (None, (x, match v with CFun "" ps b E => CFun x ps b E | _ => v end) :: E)
                      | SAug o (EName x) e =>
                          v <- sev n E e ;; match look E x with Some u => w <- s_arith o u v ;; Ok (None, (x, w) :: E) | None => Err NameErr end
                      | SExpr e =>
                          match eval_of e with
                          | Some (c, d) =>
                              v <- sev n E c ;;
                              match v, d with
                              | CCode p, EName x =>
                                  match look E x with Some (CD l) => Ok (None, (x, CD (defs p ++ l)) :: E) | _ => Err TypeErr end
                              | CCode p, ECall (EName g) [] [] => if String.eqb g "globals" then Ok (None, defs p ++ E) else Err TypeErr
                              | _, _ => Err TypeErr
                              end
                          | None => v <- sev n E e ;; Ok (None, E)
                          end
                      | SIf c b1 b2 => v <- sev n E c ;; t <- struth v ;; sex n E (if t : bool then b1 else b2)
                      | SFor (EName x) it body =>
                          v <- sev n E it ;; l <- sitems v ;;
                          (fix loop (l : list sv) (E : senv) : res (option sv * senv) :=
                             match l with
                             | [] => Ok (None, E)
                             | a :: l =>
                                 '(r, E) <- sex n ((x, a) :: E) body ;;
                                 match r with Some v => Ok (Some v, E) | None => loop l E end
                             end) l E
                      | SRet None => Ok (Some CNone, E)
                      | SRet (Some e) => v <- sev n E e ;; Ok (Some v, E)
                      | SDef f ps body => Ok (None, (f, CFun f ps body E) :: E)
                      | SAssert e => v <- sev n E e ;; t <- struth v ;; if t : bool then Ok (None, E) else Err AssertErr
                      | SRaise _ => Err ValueErr
                      | SImport | SPass => Ok (None, E)
                      | _ => Err TypeErr
                      end) ;;
          match r with Some v => Ok (Some v, E) | None => sex n E b end
      end
  end.
(** The function registered for [f]: [@overload(f, ..)]. *)
Fixpoint overload_of (p : list stmt) (f : string) : option sv :=
  match p with
  | [] => None
  | SDeco (ECall (EName o) (EName g :: _) _) (SDef h ps b) :: p =>
      match overload_of p f with
      | Some v => Some v
      | None => if String.eqb o "overload" && String.eqb g f then Some (CFun h ps b []) else None
      end
  | _ :: p => overload_of p f
  end.
(** The function that runs when [f] is called with arguments of the types [ts]: [None], when [f] is not
    overloaded; an error, when there is none for these types. *)
Definition resolve (f : string) (ts : list ty) : option (res (list (string * option expr) * list stmt)) :=
  match overload_of P f with
  | Some g => Some (v <- sapply 100 g (map CTy ts) ;; match v with CFun _ ps b _ => Ok (ps, b) | _ => Err TypeErr end)
  | None => None
  end.
End Stage1.

(** ** Second stage.  What happens to numbers is a parameter. *)
Record ops (T : Type) := mkOps {
  o_add : Z -> Z -> Z; o_sub : Z -> Z -> Z; o_min : Z -> Z -> Z; o_max : Z -> Z -> Z;
  o_num : Z -> T; o_fadd : T -> T -> T; o_fsub : T -> T -> T; o_fmul : T -> T -> T; o_fmin : T -> T -> T; o_fmax : T -> T -> T;
  o_div : T -> T -> res T; o_floordiv : T -> T -> res Z; o_search : arr T -> T -> Z;
  o_get : arr T -> list Z -> res T; o_set : arr T -> list Z -> T -> res (arr T); o_zeros : list Z -> arr T }.
Arguments mkOps {T}. Arguments o_add {T}. Arguments o_sub {T}. Arguments o_min {T}. Arguments o_max {T}. Arguments o_num {T}.
Arguments o_fadd {T}. Arguments o_fsub {T}. Arguments o_fmul {T}. Arguments o_fmin {T}. Arguments o_fmax {T}. Arguments o_div {T}.
Arguments o_floordiv {T}. Arguments o_search {T}. Arguments o_get {T}. Arguments o_set {T}. Arguments o_zeros {T}.

(** Negative subscripts count from the end. *)
Definition wrap_idx (sh idx : list Z) : list Z := map2 (fun n i => if i <? 0 then i + n else i) sh idx ++ skipn (List.length sh) idx.
Definition std_floordiv {T} {NT : Num T} (x y : T) : res Z := if n_is0 y then Err ZeroDivErr else Ok (n_floordiv x y).
Definition std_search {T} {NT : Num T} (a : arr T) (x : T) : Z := searchsorted (map (fun i => acell a [i]) (zrange (hd 0 (ashape a)))) x.
Definition std_get {T} (a : arr T) (idx : list Z) : res T := aget a (wrap_idx (ashape a) idx).
Definition std_set {T} (a : arr T) (idx : list Z) (v : T) : res (arr T) := aset a (wrap_idx (ashape a) idx) v.
Definition std {T} {NT : Num T} : ops T :=
  mkOps Z.add Z.sub Z.min Z.max n_ofZ n_add n_sub n_mul pymin pymax divE std_floordiv std_search std_get std_set azeros.

Section Stage2.
Context {T : Type}.
Variable W : ops T.
Variable P : list stmt.

(** [RZ z]: the float that has the integer value [z], a result of [//]. *)
Inductive rv := RI (z : Z) | RZ (z : Z) | RF (x : T) | RT (l : list rv) | RA (a : arr T) | RFn (f : string) | RNone.
Definition renv := list (string * rv).
(** Assignment to a variable. *)
Fixpoint bindv (E : renv) (x : string) (v : rv) : renv :=
  match E with [] => [(x, v)] | (y, w) :: E => if String.eqb y x then (x, v) :: E else (y, w) :: bindv E x v end.
Fixpoint typeof (v : rv) : res ty :=
  let all := fix all (l : list rv) : res (list ty) := match l with [] => Ok [] | v :: l => t <- typeof v ;; r <- all l ;; Ok (t :: r) end in
  match v with
  | RI _ => Ok TyInt
  | RZ _ | RF _ => Ok TyFlt
  | RT l => ts <- all l ;; Ok (TyTup ts)
  | RA a => Ok (TyArr (zlen (ashape a)))
  | RFn _ => Ok TyFun
  | RNone => Err TypeErr
  end.
Definition number (v : rv) : res T := match v with RI z => Ok (o_num W z) | RF x => Ok x | _ => Err TypeErr end.
Definition r_arith (o : string) (a b : rv) : res rv :=
  match a, b with
  | RI x, RI y => if String.eqb o "+" then Ok (RI (o_add W x y)) else if String.eqb o "-" then Ok (RI (o_sub W x y)) else Err TypeErr
  | _, _ =>
      x <- number a ;; y <- number b ;;
      if String.eqb o "+" then Ok (RF (o_fadd W x y)) else if String.eqb o "-" then Ok (RF (o_fsub W x y))
      else if String.eqb o "*" then Ok (RF (o_fmul W x y)) else if String.eqb o "/" then q <- o_div W x y ;; Ok (RF q)
      else if String.eqb o "//" then z <- o_floordiv W x y ;; Ok (RZ z) else Err TypeErr
  end.
Fixpoint indices (l : list rv) : res (list Z) :=
  match l with [] => Ok [] | RI z :: l => r <- indices l ;; Ok (z :: r) | _ => Err TypeErr end.
Definition r_index (v : rv) (l : list rv) : res rv :=
  match v with
  | RT r => match l with [RI z] => lget r (if z <? 0 then z + zlen r else z) | _ => Err TypeErr end
  | RA a => idx <- indices l ;; x <- o_get W a idx ;; Ok (RF x)
  | _ => Err TypeErr
  end.
Definition r_library (f : string) (l : list rv) : option (res rv) :=
  if String.eqb f "min" then
    Some (match l with [RI x; RI y] => Ok (RI (o_min W x y)) | [RF x; RF y] => Ok (RF (o_fmin W x y)) | _ => Err TypeErr end)
  else if String.eqb f "max" then
    Some (match l with [RI x; RI y] => Ok (RI (o_max W x y)) | [RF x; RF y] => Ok (RF (o_fmax W x y)) | _ => Err TypeErr end)
  else if String.eqb f "int" then Some (match l with [RI z] | [RZ z] => Ok (RI z) | _ => Err TypeErr end)
  else if String.eqb f "len" then Some (match l with [RA a] => n <- lget (ashape a) 0 ;; Ok (RI n) | [RT r] => Ok (RI (zlen r)) | _ => Err TypeErr end)
  else if String.eqb f "np.searchsorted" then
    Some (match l with [RA a; RF x] => match ashape a with [_] => Ok (RI (o_search W a x)) | _ => Err TypeErr end | _ => Err TypeErr end)
  else if (String.eqb f "zeros" || String.eqb f "np.zeros") then
    Some (match l with [RI n] => Ok (RA (o_zeros W [n])) | [RT sh] => sh <- indices sh ;; Ok (RA (o_zeros W sh)) | _ => Err TypeErr end)
  else None.
Fixpoint bindps (ps : list (string * option expr)) (vs : list rv) : res renv :=
  match ps with
  | [] => match vs with [] => Ok [] | _ => Err TypeErr end
  | (x, _) :: ps =>
      match star x with
      | Some y => Ok [(y, RT vs)]
      | None => match vs with v :: vs => E <- bindps ps vs ;; Ok ((x, v) :: E) | [] => Err TypeErr end
      end
  end.
Fixpoint types (l : list rv) : res (list ty) := match l with [] => Ok [] | v :: l => t <- typeof v ;; r <- types l ;; Ok (t :: r) end.
(** [for x in l: body], [l] a range. *)
Fixpoint rloop (body : renv -> res (option rv * renv)) (x : string) (l : list Z) (E : renv) : res (option rv * renv) :=
  match l with
  | [] => Ok (None, E)
  | i :: l => '(r, E) <- body (bindv E x (RI i)) ;; match r with Some v => Ok (Some v, E) | None => rloop body x l E end
  end.

Fixpoint rev_ (n : nat) (E : renv) (e : expr) {struct n} : res rv :=
  match n with
  | O => Err FuelErr
  | S n =>
      match e with
      | EName x =>
          match look E x with
          | Some v => Ok v
          | None => match binding P x None with Some (SDef _ _ _) => Ok (RFn x) | _ => Err NameErr end
          end
      | EInt z => Ok (RI z)
      | EBin o a b => x <- rev_ n E a ;; y <- rev_ n E b ;; r_arith o x y
      | ETup l => vs <- revs n E l ;; Ok (RT vs)
      | ESub a l => v <- rev_ n E a ;; vs <- revs n E l ;; r_index v vs
      | EAttr a s => v <- rev_ n E a ;; match v with RA a => if String.eqb s "shape" then Ok (RT (map RI (ashape a))) else Err TypeErr | _ => Err TypeErr end
      | ECall f args [] =>
          vs <- revs n E args ;;
          match fun_name f with
          | Some s =>
              match look E s with
              | Some (RFn g) => rcall n g vs
              | Some _ => Err TypeErr
              | None => match r_library s vs with Some r => r | None => rcall n s vs end
              end
          | None => Err TypeErr
          end
      | _ => Err TypeErr
      end
  end
with revs (n : nat) (E : renv) (l : list expr) {struct n} : res (list rv) :=
  match n with
  | O => Err FuelErr
  | S n =>
      match l with
      | [] => Ok []
      | EStar a :: r => v <- rev_ n E a ;; match v with RT l => vs <- revs n E r ;; Ok (l ++ vs) | _ => Err TypeErr end
      | a :: r => v <- rev_ n E a ;; vs <- revs n E r ;; Ok (v :: vs)
      end
  end
(** A call of a function of the modules. *)
with rcall (n : nat) (f : string) (vs : list rv) {struct n} : res rv :=
  match n with
  | O => Err FuelErr
  | S n =>
      ts <- types vs ;;
      '(ps, b) <- match resolve P f ts with
                  | Some r => r
                  | None => match binding P f None with Some (SDef _ ps b) => Ok (ps, b) | _ => Err NameErr end
                  end ;;
      E <- bindps ps vs ;;
      '(r, _) <- rex n E b ;;
      match r with Some v => Ok v | None => Ok RNone end
  end
with rex (n : nat) (E : renv) (b : list stmt) {struct n} : res (option rv * renv) :=
  match n with
  | O => Err FuelErr
  | S n =>
      match b with
      | [] => Ok (None, E)
      | s :: b =>
          '(r, E) <- (match s with
                      | SAssign [EName x] e => v <- rev_ n E e ;; Ok (None, bindv E x v)
                      | SAssign [ETup [EName x; EName y]] e =>
                          v <- rev_ n E e ;; match v with RT [p; q] => Ok (None, bindv (bindv E x p) y q) | _ => Err TypeErr end
                      | SAssign [ESub (EName x) l] e =>
                          v <- rev_ n E e ;; vs <- revs n E l ;; idx <- indices vs ;;
                          match look E x, v with
                          | Some (RA a), RF y => a <- o_set W a idx y ;; Ok (None, bindv E x (RA a))
                          | _, _ => Err TypeErr
                          end
                      | SFor (EName x) (ECall (EName f) [e] []) body =>
                          if String.eqb f "range" then
                            v <- rev_ n E e ;; match v with RI z => rloop (fun E => rex n E body) x (zrange z) E | _ => Err TypeErr end
                          else Err TypeErr
                      | SRet (Some e) => v <- rev_ n E e ;; Ok (Some v, E)
                      | SImport | SPass => Ok (None, E)
                      | _ => Err TypeErr
                      end) ;;
          match r with Some v => Ok (Some v, E) | None => rex n E b end
      end
  end.
End Stage2.
Arguments rv : clear implicits.
