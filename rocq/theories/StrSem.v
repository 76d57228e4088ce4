(** Interpreter of the Python subset in which the code generators of /repo are written: strings, lists,
    functions and templates.  Definitions only.  This file models no function of /repo but the
    interpretation of templates (tempita/__init__.py 200-338); it gives the meaning of the texts Src*.v of the generators.

    What it leaves out: exceptions other than as an error value, late binding of closures (a function
    keeps the values its names have where it is defined), lists as mutable objects ([x.append(e)]
    rebinds the name [x]), everything that no generator uses. *)
From Coq Require Import ZArith List Bool Ascii String DecimalString.
From Coq.Strings Require Import Byte.
From Verif Require Import Base PySyntax TempitaModel.
Import ListNotations.
Open Scope string_scope.
Open Scope list_scope.
Open Scope Z_scope.

Inductive pv :=
| VI (z : Z) | VS (s : string) | VB (b : bool) | VN
| VT (l : list pv) | VL (l : list pv) | VSet (l : list pv)
| VFun (ps : list (string * option expr)) (b : list stmt) (E : list (string * pv))
| VTempl (l : list code).
Definition penv := list (string * pv).
Definition get (E : penv) (x : string) : option pv :=
  match find (fun p => String.eqb x (fst p)) E with Some (_, v) => Some v | None => None end.

(** ** Library *)
Definition decZ (z : Z) : string := NilZero.string_of_int (Z.to_int z).
Fixpoint join (sep : string) (l : list string) : string :=
  match l with [] => "" | [a] => a | a :: r => (a ++ sep ++ join sep r)%string end.
Fixpoint replace (a b s : string) (skip : nat) : string :=
  match s with
  | "" => ""
  | String c r =>
      match skip with
      | S k => replace a b r k
      | O => if starts a s then (b ++ replace a b r (String.length a - 1))%string else String c (replace a b r 0)
      end
  end.
Fixpoint in_str (s : string) (c : ascii) : bool := match s with "" => false | String x r => Ascii.eqb c x || in_str r c end.
(** Escapes in a string literal. *)
Fixpoint unescape (s : string) : string :=
  match s with
  | String "\" (String c r) =>
      if is_c 10 c then unescape r
      else if Ascii.eqb c "n" then String (chr 10) (unescape r)
      else String c (unescape r)
  | String c r => String c (unescape r)
  | "" => ""
  end.
(** [str(v)] *)
Fixpoint to_text (v : pv) : string :=
  match v with
  | VI z => decZ z
  | VS s => s
  | VB true => "True" | VB false => "False" | VN => "None"
  | VT [a] => ("(" ++ to_text a ++ ",)")%string
  | VT l => ("(" ++ join ", " (map to_text l) ++ ")")%string
  | VL l => ("[" ++ join ", " (map to_text l) ++ "]")%string
  | _ => "?"
  end.
Fixpoint veq (a b : pv) : bool :=
  let all := fix all (l m : list pv) : bool :=
    match l, m with [], [] => true | a :: l, b :: m => veq a b && all l m | _, _ => false end in
  match a, b with
  | VI x, VI y => x =? y
  | VS x, VS y => String.eqb x y
  | VB x, VB y => Bool.eqb x y
  | VN, VN => true
  | VT l, VT m | VL l, VL m => all l m
  | _, _ => false
  end.
Definition mem (a : pv) (l : list pv) : bool := existsb (veq a) l.
Fixpoint dedup (l : list pv) : list pv :=
  match l with [] => [] | a :: r => if mem a r then dedup r else a :: dedup r end.
Definition equal (a b : pv) : bool :=
  match a, b with
  | VSet l, VSet m => forallb (fun x => mem x m) l && forallb (fun x => mem x l) m
  | _, _ => veq a b
  end.
Definition items (v : pv) : res (list pv) :=
  match v with VT l | VL l | VSet l => Ok l | _ => Err TypeErr end.
Fixpoint insert_int (z : Z) (l : list pv) : res (list pv) :=
  match l with
  | [] => Ok [VI z]
  | VI y :: r => if z <=? y then Ok (VI z :: l) else (q <- insert_int z r ;; Ok (VI y :: q))
  | _ => Err TypeErr
  end.
Fixpoint sort_ints (l : list pv) : res (list pv) :=
  match l with
  | [] => Ok []
  | VI z :: r => q <- sort_ints r ;; insert_int z q
  | _ => Err TypeErr
  end.
Definition heads (l : list (list pv)) : option (list pv * list (list pv)) :=
  fold_right (fun a acc => match a, acc with x :: r, Some (hs, ts) => Some (x :: hs, r :: ts) | _, _ => None end) (Some ([], [])) l.
Fixpoint zip (fuel : nat) (l : list (list pv)) : list pv :=
  match fuel, l with
  | S fuel, _ :: _ => match heads l with Some (hs, ts) => VT hs :: zip fuel ts | None => [] end
  | _, _ => []
  end.
Definition true_of (v : pv) : res bool :=
  match v with
  | VB b => Ok b
  | VN => Ok false
  | VI z => Ok (negb (z =? 0))
  | VS s => Ok (negb (empty_str s))
  | VT l | VL l | VSet l => Ok (negb (match l with [] => true | _ => false end))
  | _ => Err TypeErr
  end.
Fixpoint strings (l : list pv) : res (list string) :=
  match l with
  | [] => Ok []
  | VS s :: r => q <- strings r ;; Ok (s :: q)
  | _ => Err TypeErr
  end.
(** [s.format(args)] with the field [{}] only. *)
Fixpoint format (s : string) (args : list pv) : res string :=
  match s with
  | "" => Ok ""
  | String "{" (String "}" r) =>
      match args with a :: args => q <- format r args ;; Ok (to_text a ++ q)%string | [] => Err IndexErr end
  | String c r => q <- format r args ;; Ok (String c q)
  end.
(** An f-string: pieces of text (false) and of expressions (true). *)
Fixpoint fpieces (inside : bool) (acc s : string) : list (bool * string) :=
  match s with
  | "" => [(inside, rev_str acc)]
  | String c r =>
      if inside then if Ascii.eqb c "}" then (true, rev_str acc) :: fpieces false "" r else fpieces true (String c acc) r
      else if Ascii.eqb c "{" then (false, rev_str acc) :: fpieces true "" r else fpieces false (String c acc) r
  end.
(** The expression in a directive or in an f-string. *)
Definition read_expr (s : string) : res expr :=
  let l := list_byte_of_string (strip is_blank s) in
  match PySyntax.lex (S (List.length l) * 2) false 0 [0%nat] l with
  | Some ts => match pe (Nat.pow 2 12) 0 ts with Some (e, [TNl]) => Ok e | _ => Err TypeErr end
  | None => Err TypeErr
  end.
Definition arith_v (o : string) (a b : pv) : res pv :=
  match a, b with
  | VI x, VI y => if String.eqb o "+" then Ok (VI (x + y)) else if String.eqb o "-" then Ok (VI (x - y))
                  else if String.eqb o "*" then Ok (VI (x * y)) else Err TypeErr
  | VS x, VS y => if String.eqb o "+" then Ok (VS (x ++ y)%string) else Err TypeErr
  | VL x, VL y => if String.eqb o "+" then Ok (VL (x ++ y)) else Err TypeErr
  | VT x, VT y => if String.eqb o "+" then Ok (VT (x ++ y)) else Err TypeErr
  | VL x, VI y => if String.eqb o "*" then Ok (VL (List.concat (repeat x (Z.to_nat y)))) else Err TypeErr
  | VT x, VI y => if String.eqb o "*" then Ok (VT (List.concat (repeat x (Z.to_nat y)))) else Err TypeErr
  | VS x, VI y => if String.eqb o "*" then Ok (VS (String.concat "" (repeat x (Z.to_nat y)))) else Err TypeErr
  | _, _ => Err TypeErr
  end.
Definition compare_v (o : string) (a b : pv) : res bool :=
  if String.eqb o "==" then Ok (equal a b)
  else if String.eqb o "!=" then Ok (negb (equal a b))
  else if String.eqb o "is" then Ok (veq a b)
  else if String.eqb o "is not" then Ok (negb (veq a b))
  else match a, b with
       | VI x, VI y => if String.eqb o "<" then Ok (x <? y) else if String.eqb o ">" then Ok (y <? x)
                       else if String.eqb o "<=" then Ok (x <=? y) else if String.eqb o ">=" then Ok (y <=? x) else Err TypeErr
       | _, _ => Err TypeErr
       end.
Definition index_v (v i : pv) : res pv :=
  match v, i with
  | VT l, VI z | VL l, VI z => lget l (if z <? 0 then z + zlen l else z)
  | _, _ => Err TypeErr
  end.
(** [v[1:]] *)
Definition tail_v (v : pv) : res pv :=
  match v with
  | VT (_ :: l) => Ok (VT l) | VT [] => Ok (VT [])
  | VL (_ :: l) => Ok (VL l) | VL [] => Ok (VL [])
  | VS s => Ok (VS (drop 1 s))
  | _ => Err TypeErr
  end.
(** Functions of the library; [None]: not one of them. *)
Definition library (f : string) (args : list pv) : option (res pv) :=
  if String.eqb f "str" then Some (match args with [v] => Ok (VS (to_text v)) | _ => Err TypeErr end)
  else if String.eqb f "len" then Some (match args with [v] => l <- items v ;; Ok (VI (zlen l)) | _ => Err TypeErr end)
  else if String.eqb f "range" then Some (match args with [VI n] => Ok (VL (map VI (zrange n))) | _ => Err TypeErr end)
  else if String.eqb f "enumerate" then
    Some (match args with [v] => l <- items v ;; Ok (VL (map (fun p => VT [VI (Z.of_nat (fst p)); snd p]) (combine (seq 0 (List.length l)) l))) | _ => Err TypeErr end)
  else if String.eqb f "tuple" then Some (match args with [v] => l <- items v ;; Ok (VT l) | _ => Err TypeErr end)
  else if String.eqb f "list" then Some (match args with [v] => l <- items v ;; Ok (VL l) | _ => Err TypeErr end)
  else if String.eqb f "set" then Some (match args with [v] => l <- items v ;; Ok (VSet (dedup l)) | _ => Err TypeErr end)
  else if String.eqb f "sorted" then Some (match args with [v] => l <- items v ;; l <- sort_ints l ;; Ok (VL l) | _ => Err TypeErr end)
  else if String.eqb f "zip" then
    Some (ls <- mapM items args ;; Ok (VL (zip (S (fold_right (fun l n => Nat.max (List.length l) n) 0%nat ls)) ls)))
  else if String.eqb f "str.join" then
    Some (match args with [VS s; v] => l <- items v ;; l <- strings l ;; Ok (VS (join s l)) | _ => Err TypeErr end)
  else if String.eqb f "str.split" then
    Some (match args with [VS s; VS (String c "")] => Ok (VL (map VS (split_on c s))) | _ => Err TypeErr end)
  else if String.eqb f "tempita.Template" then
    Some (match args with [VS s] => cs <- parse s ;; Ok (VTempl cs) | _ => Err TypeErr end)
  else None.
Definition method (v : pv) (m : string) (args : list pv) : res pv :=
  match v with
  | VS s =>
      if String.eqb m "strip" then match args with [VS cs] => Ok (VS (strip (in_str cs) s)) | _ => Err TypeErr end
      else if String.eqb m "replace" then match args with [VS a; VS b] => Ok (VS (replace a b s 0)) | _ => Err TypeErr end
      else if String.eqb m "format" then r <- format s args ;; Ok (VS r)
      else Err TypeErr
  | _ => Err TypeErr
  end.
Definition module_fun (f : expr) : option string :=
  match f with
  | EName x => Some x
  | EAttr (EName x) m => if String.eqb x "str" || String.eqb x "tempita" then Some (x ++ "." ++ m)%string else None
  | _ => None
  end.
(** [isinstance(a, (tuple, list))] *)
Definition inst_arg (f : expr) (args : list expr) : option expr :=
  match f, args with
  | EName i, [a; ETup [EName t; EName l]] =>
      if String.eqb i "isinstance" && String.eqb t "tuple" && String.eqb l "list" then Some a else None
  | _, _ => None
  end.
(** [x.append(e)] *)
Definition append_of (e : expr) : option (string * expr) :=
  match e with
  | ECall (EAttr (EName x) m) [e] [] => if String.eqb m "append" then Some (x, e) else None
  | _ => None
  end.
Definition star (x : string) : option string :=
  match x with String c r => if Ascii.eqb c "*" then Some r else None | "" => None end.
Definition bind_names (E : penv) (x : expr) (v : pv) : res penv :=
  match x with
  | EName s => Ok ((s, v) :: E)
  | ETup [EName a; EName b] => l <- items v ;; match l with [p; q] => Ok ((a, p) :: (b, q) :: E) | _ => Err ValueErr end
  | _ => Err TypeErr
  end.
Definition bind_vars (E : penv) (vars : list string) (v : pv) : res penv :=
  match vars with
  | [x] => Ok ((x, v) :: E)
  | [a; b] => l <- items v ;; match l with [p; q] => Ok ((b, q) :: (a, p) :: E) | _ => Err ValueErr end
  | _ => Err TypeErr
  end.
Definition raised_v (e : option expr) : err :=
  match e with Some (ECall (EName s) _ _) => if String.eqb s "ValueError" then ValueErr else NotImplErr | _ => NotImplErr end.

(** ** Interpreter.  [P]: the module; [n]: bound on the depth. *)
Section Interp.
Variable P : list stmt.
Fixpoint global (p : list stmt) (x : string) : option pv :=
  match p with
  | [] => None
  | SDef f ps b :: r => match global r x with Some v => Some v | None => if String.eqb f x then Some (VFun ps b []) else None end
  | SAssign [EName y] (EStr s) :: r => match global r x with Some v => Some v | None => if String.eqb y x then Some (VS (unescape s)) else None end
  | _ :: r => global r x
  end.

Fixpoint ev (n : nat) (E : penv) (e : expr) {struct n} : res pv :=
  match n with
  | O => Err FuelErr
  | S n =>
      match e with
      | EName x => match get E x with Some v => Ok v | None => match global P x with Some v => Ok v | None => Err NameErr end end
      | EInt z => Ok (VI z)
      | EStr s => Ok (VS (unescape s))
      | EFStr s =>
          l <- mapM (fun p : bool * string => if fst p then e <- read_expr (snd p) ;; v <- ev n E e ;; Ok (to_text v) else Ok (snd p))
                    (fpieces false "" (unescape s)) ;;
          Ok (VS (join "" l))
      | ENone => Ok VN
      | ETrue => Ok (VB true)
      | EFalse => Ok (VB false)
      | EBin o a b => x <- ev n E a ;; y <- ev n E b ;; arith_v o x y
      | ENot a => x <- ev n E a ;; b <- true_of x ;; Ok (VB (negb b))
      | ECmp a [(o, b)] => x <- ev n E a ;; y <- ev n E b ;; r <- compare_v o x y ;; Ok (VB r)
      | EAnd a b => x <- ev n E a ;; t <- true_of x ;; if t : bool then ev n E b else Ok x
      | EOr a b => x <- ev n E a ;; t <- true_of x ;; if t : bool then Ok x else ev n E b
      | EIfE c a b => x <- ev n E c ;; t <- true_of x ;; if t : bool then ev n E a else ev n E b
      | ETup l => vs <- mapM (ev n E) l ;; Ok (VT vs)
      | EList l => vs <- mapM (ev n E) l ;; Ok (VL vs)
      | EComp e x it None =>
          v <- ev n E it ;; l <- items v ;;
          vs <- mapM (fun a => E <- bind_names E x a ;; ev n E e) l ;; Ok (VL vs)
      | ELam ps e => Ok (VFun (map (fun x => (x, None)) ps) [SRet (Some e)] E)
      | ESub a [ESlice (Some (EInt 1)) None None] => v <- ev n E a ;; tail_v v
      | ESub a [i] => v <- ev n E a ;; j <- ev n E i ;; index_v v j
      | ECall f args kws =>
          match inst_arg f args with Some a => v <- ev n E a ;; Ok (VB (match v with VT _ | VL _ => true | _ => false end)) | None =>
          vs <- evs n E args ;;
          ks <- mapM (fun k => v <- ev n E (snd k) ;; Ok (fst k, v)) kws ;;
          match module_fun f with
          | Some s =>
              match library s vs with
              | Some r => match ks with [] => r | _ => Err TypeErr end
              | None => g <- ev n E f ;; apply n g vs ks
              end
          | None =>
              match f with
              | EAttr o m =>
                  v <- ev n E o ;;
                  match v with
                  | VTempl cs => if String.eqb m "substitute" then '(s, _) <- fill n ks cs ;; Ok (VS s) else Err TypeErr
                  | _ => match ks with [] => method v m vs | _ => Err TypeErr end
                  end
              | _ => Err TypeErr
              end
          end end
      | _ => Err TypeErr
      end
  end
with evs (n : nat) (E : penv) (l : list expr) {struct n} : res (list pv) :=
  match n with
  | O => Err FuelErr
  | S n =>
      match l with
      | [] => Ok []
      | EStar a :: r => v <- ev n E a ;; l <- items v ;; vs <- evs n E r ;; Ok (l ++ vs)
      | a :: r => v <- ev n E a ;; vs <- evs n E r ;; Ok (v :: vs)
      end
  end
with apply (n : nat) (g : pv) (vs : list pv) (ks : penv) {struct n} : res pv :=
  match n with
  | O => Err FuelErr
  | S n =>
      match g with
      | VFun ps b E =>
          E <- (fix bind (ps : list (string * option expr)) (vs : list pv) : res penv :=
                  match ps with
                  | [] => match vs with [] => Ok E | _ => Err TypeErr end
                  | (x, d) :: ps =>
                      match star x with
                      | Some y => Ok ((y, VT vs) :: E)
                      | None =>
                          match vs with
                          | v :: vs => E <- bind ps vs ;; Ok ((x, v) :: E)
                          | [] =>
                              v <- (match get ks x with
                                    | Some v => Ok v
                                    | None => match d with Some e => ev n [] e | None => Err TypeErr end
                                    end) ;;
                              E <- bind ps [] ;; Ok ((x, v) :: E)
                          end
                      end
                  end) ps vs ;;
          '(r, _) <- ex n E b ;;
          match r with Some v => Ok v | None => Ok VN end
      | _ => Err TypeErr
      end
  end
(** A block: the value returned, if any. *)
with ex (n : nat) (E : penv) (b : list stmt) {struct n} : res (option pv * penv) :=
  match n with
  | O => Err FuelErr
  | S n =>
      match b with
      | [] => Ok (None, E)
      | s :: b =>
          '(r, E) <- (match s with
                      | SAssign [EName x] e => v <- ev n E e ;; Ok (None, (x, v) :: E)
                      | SExpr e =>
                          match append_of e with
                          | Some (x, e) =>
                              v <- ev n E e ;;
                              match get E x with Some (VL l) => Ok (None, (x, VL (l ++ [v])) :: E) | _ => Err TypeErr end
                          | None => match e with EStr _ => Ok (None, E) | _ => Err TypeErr end
                          end
                      | SIf c b1 b2 => v <- ev n E c ;; t <- true_of v ;; ex n E (if t : bool then b1 else b2)
                      | SFor x it body =>
                          v <- ev n E it ;; l <- items v ;;
                          (fix loop (l : list pv) (E : penv) : res (option pv * penv) :=
                             match l with
                             | [] => Ok (None, E)
                             | a :: l =>
                                 E <- bind_names E x a ;; '(r, E) <- ex n E body ;;
                                 match r with Some v => Ok (Some v, E) | None => loop l E end
                             end) l E
                      | SRet None => Ok (Some VN, E)
                      | SRet (Some e) => v <- ev n E e ;; Ok (Some v, E)
                      | SDef f ps body => Ok (None, (f, VFun ps body E) :: E)
                      | SImport | SPass => Ok (None, E)
                      | SRaise e => Err (raised_v e)
                      | _ => Err TypeErr
                      end) ;;
          match r with Some v => Ok (Some v, E) | None => ex n E b end
      end
  end
(** tempita/__init__.py 214-300 [_interpret_codes]: the text of a list of codes in a namespace. *)
with fill (n : nat) (ns : penv) (l : list code) {struct n} : res (string * penv) :=
  match n with
  | O => Err FuelErr
  | S n =>
      match l with
      | [] => Ok ("", ns)
      | k :: l =>
          '(s, ns) <- (match k with
                       | KText s => Ok (s, ns)
                       | KExpr e =>                                              (* 236-242, 302-320 *)
                           e <- read_expr e ;; v <- ev n ns e ;;
                           Ok (match v with VN => "" | _ => to_text v end, ns)
                       | KIf parts =>                                            (* 288-300 *)
                           (fix test (l : list (option string * list code)) : res (string * penv) :=
                              match l with
                              | [] => Ok ("", ns)
                              | (None, b) :: _ => fill n ns b
                              | (Some c, b) :: r => e <- read_expr c ;; v <- ev n ns e ;; t <- true_of v ;;
                                                    if t : bool then fill n ns b else test r
                              end) parts
                       | KFor vars e b =>                                        (* 268-286 *)
                           e <- read_expr e ;; v <- ev n ns e ;; l <- items v ;;
                           (fix loop (l : list pv) (ns : penv) : res (string * penv) :=
                              match l with
                              | [] => Ok ("", ns)
                              | a :: l => ns <- bind_vars ns vars a ;; '(s, ns) <- fill n ns b ;; '(t, ns) <- loop l ns ;;
                                          Ok ((s ++ t)%string, ns)
                              end) l ns
                       end) ;;
          '(t, ns) <- fill n ns l ;; Ok ((s ++ t)%string, ns)
      end
  end.

(** Calling the function [f] of the module. *)
Definition call_fun (n : nat) (f : string) (vs : list pv) (ks : penv) : res pv :=
  match global P f with Some g => apply n g vs ks | None => Err NameErr end.
End Interp.
