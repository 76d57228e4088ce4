(** An interpreter for the spline classes (splines/splines.py, splines/multilinear.py) and for the functions of
    splines/filter_cubic.py and splines/eval_cubic.py that they call.  Definitions only.

    One object, [self], is alive; its attributes and a heap of arrays of floats are the state.  The interpreter is
    written with continuations; an exception ends the run and keeps the state.  Simplifications:
    - vectors made from lists ([np.array(a, dtype=float)]) and the points of a call are values: the classes never
      write to them; all other arrays are references into the heap, possibly seen through [reshape];
    - [reshape] of a contiguous array of floats is a view, of any other array a copy; [ascontiguousarray] returns such
      an array itself and copies any other;
    - [a[..., i]] is a copy: the code only reads it, before anything else happens;
    - [np.all(np.isfinite(x))] is computed by [isfinite] (a truth value for the whole array);
    - [raise] does not evaluate the message; imports do nothing; dtype is used to tell ints from floats;
    - the compiled functions ([eval_cubic], [eval_linear], [filter_coeffs_1d].., [vec_eval_cubic_splines_G_1]..) and
      [mlinspace] of cartesian.py are operations of the record [ops], as are the operations of numpy. *)
From Coq Require Import ZArith List Bool String.
From Verif Require Import Base SplineModel PrefilterModel ArrayModel CartesianModel GradModel ObjectModel PySyntax.
Import ListNotations.
Open Scope Z_scope.
Open Scope string_scope.

Inductive ov (T : Type) :=
| ONone | OB (b : bool) | OI (z : Z) | OF (x : T) | OS (s : string)   (* strings, names of types *)
| OL (l : list (ov T))                                               (* lists and tuples *)
| OVec (l : list T) | OIVec (l : list Z)                             (* vectors that nothing writes to *)
| OMat (a : arr T)                                                   (* rows of points *)
| ORef (l : nat) (vs : list (list Z))                                (* array [l] of the heap, reshaped by [vs] in turn *)
| OSelf.
Arguments ONone {T}. Arguments OB {T} b. Arguments OI {T} z. Arguments OF {T} x. Arguments OS {T} s. Arguments OL {T} l.
Arguments OVec {T} l. Arguments OIVec {T} l. Arguments OMat {T} a. Arguments ORef {T} l vs. Arguments OSelf {T}.

(** The operations on numbers, arrays and the heap [H]. *)
Record ops (T H : Type) := mkOps {
  o_eqb : Z -> Z -> bool; o_add : Z -> Z -> Z; o_num : Z -> T; o_sub : T -> T -> T; o_div : T -> T -> T;
  o_next : H -> nat;                                   (* where the next array goes *)
  o_alloc : H -> bool -> arr T -> H;                   (* true: contiguous floats *)
  o_read : H -> nat -> list (list Z) -> res (arr T);
  o_write : H -> nat -> arr T -> H;
  o_plain : H -> nat -> bool;
  o_reshape : arr T -> list Z -> res (arr T);
  o_dim : list Z -> Z -> res Z;                        (* shape[i] *)
  o_comp : arr T -> Z -> res (arr T);                  (* a[..., i] *)
  o_setcomp : arr T -> Z -> arr T -> res (arr T);      (* a[..., i] = v *)
  o_zeros : list Z -> arr T; o_empty : list Z -> arr T;
  o_finite : arr T -> bool; o_finite1 : list T -> bool;
  o_row : list T -> Z * (list Z -> T);                 (* atleast_2d: number of columns, entries *)
  o_first : arr T -> res (pyval T);                    (* a[0] *)
  o_ravel : arr T -> res (arr T);
  o_filter : Z -> list T -> arr T -> res (arr T);      (* filter_coeffs_1d .. filter_coeffs_4d *)
  o_eval : Z -> list (gdim T) -> arr T -> pts T -> option (arr T) -> res (pyval T * option (arr T));  (* 3: eval_cubic, 1: eval_linear *)
  o_grad : Z -> list T -> list T -> list Z -> arr T -> arr T -> arr T -> arr T -> res (arr T * arr T);
  o_mlinspace : list T -> list T -> list Z -> res (arr T) }.

Section Interpreter.
Context {T H : Type}.
Variable W : ops T H.
Variable P : list stmt.
Notation env := (list (string * ov T)).
Definition world : Type := H * env.
Definition ans : Type := world * res (ov T).
(** A loop [for x in range(z): body]: what to do is a parameter here, see [loops] below. *)
Variable F : nat -> env -> world -> string -> Z -> list stmt -> (ov T -> world -> ans) -> (env -> world -> ans) -> ans.

Fixpoint look (E : env) (x : string) : option (ov T) :=
  match E with [] => None | (y, v) :: E => if String.eqb x y then Some v else look E x end.
Fixpoint set_var (E : env) (x : string) (v : ov T) : env :=
  match E with [] => [(x, v)] | (y, u) :: E => if String.eqb x y then (x, v) :: E else (y, u) :: set_var E x v end.
Definition fail (e : err) (w : world) : ans := (w, Err e).
Definition orfail {A} (r : res A) (w : world) (k : A -> ans) : ans := match r with Ok a => k a | Err e => fail e w end.
Definition orfailo {A} (r : option A) (e : err) (w : world) (k : A -> ans) : ans := match r with Some a => k a | None => fail e w end.

(** Functions with a decorator are compiled ones. *)
Fixpoint find_def (P : list stmt) (f : string) : option (list (string * option expr) * list stmt) :=
  match P with
  | [] => None
  | SDef g ps b :: P => if String.eqb f g then Some (ps, b) else find_def P f
  | _ :: P => find_def P f
  end.
Fixpoint find_method (P : list stmt) (f : string) : option (list (string * option expr) * list stmt) :=
  match P with
  | [] => None
  | SDef g ps b :: P | SDeco _ (SDef g ps b) :: P => if String.eqb f g then Some (ps, b) else find_method P f
  | _ :: P => find_method P f
  end.
Fixpoint find_class (P : list stmt) (c : string) : list stmt :=
  match P with [] => [] | SClass g b :: P => if String.eqb c g then b else find_class P c | _ :: P => find_class P c end.
(** [x = None] in the body of the class. *)
Fixpoint class_attr (b : list stmt) (x : string) : option (ov T) :=
  match b with
  | [] => None
  | SAssign [EName y] ENone :: b => if String.eqb x y then Some ONone else class_attr b x
  | _ :: b => class_attr b x
  end.
Fixpoint is_property (b : list stmt) (x : string) : bool :=
  match b with
  | [] => false
  | SDeco (EName d) (SDef g _ _) :: b => if String.eqb x g then String.eqb d "property" else is_property b x
  | _ :: b => is_property b x
  end.
(** [np.f] and [numpy.f] are the same. *)
Fixpoint dotted (e : expr) : option string :=
  match e with
  | EName s => Some (if String.eqb s "numpy" then "np" else s)
  | EAttr e a => match dotted e with Some s => Some (s ++ "." ++ a) | None => None end
  | _ => None
  end.

(** ** Values *)
Fixpoint ints (l : list (ov T)) : option (list Z) :=
  match l with [] => Some [] | OI z :: l => option_map (cons z) (ints l) | _ => None end.
Fixpoint floats (l : list (ov T)) : option (list T) :=
  match l with
  | [] => Some []
  | OF x :: l => option_map (cons x) (floats l)
  | OI z :: l => option_map (cons (o_num _ _ W z)) (floats l)
  | _ => None
  end.
(** A vector of ints, a list of ints, an int. *)
Definition shape_of (v : ov T) : option (list Z) :=
  match v with OIVec l => Some l | OL l => ints l | OI z => Some [z] | _ => None end.
Definition items (v : ov T) : option (list (ov T)) :=
  match v with OL l => Some l | OVec l => Some (map OF l) | OIVec l => Some (map OI l) | _ => None end.
Definition length_of (v : ov T) : option Z := option_map (fun l => zlen l) (items v).
Fixpoint grid_of (l : list (ov T)) : option (list (gdim T)) :=
  match l with
  | [] => Some []
  | OL [OF a; OF b; OI n] :: l => option_map (cons (Unif a b n)) (grid_of l)
  | _ => None
  end.
Definition pts_of (v : ov T) : option (pts T) := match v with OVec l => Some (P1 l) | OMat a => Some (P2 a) | _ => None end.
Definition truth (v : ov T) : option bool := match v with OB b => Some b | _ => None end.

(** A new array. *)
Definition new (w : world) (plain : bool) (a : arr T) (k : ov T -> world -> ans) : ans :=
  k (ORef (o_next _ _ W (fst w)) []) (o_alloc _ _ W (fst w) plain a, snd w).
Definition read (w : world) (v : ov T) (k : arr T -> ans) : ans :=
  match v with ORef l vs => orfail (o_read _ _ W (fst w) l vs) w k | OMat a => k a | _ => fail TypeErr w end.
Definition of_py (w : world) (v : pyval T) (k : ov T -> world -> ans) : ans :=
  match v with VNone => k ONone w | VNum x => k (OF x) w | VArr a => new w true a k | VTuple l => k (OL (map OF l)) w end.
Definition reshape (w : world) (v : ov T) (sh : list Z) (k : ov T -> world -> ans) : ans :=
  match v with
  | ORef l vs =>
      orfail (o_read _ _ W (fst w) l vs) w (fun a => orfail (o_reshape _ _ W a sh) w (fun b =>
        if o_plain _ _ W (fst w) l then k (ORef l (vs ++ [sh])%list) w else new w false b k))
  | _ => fail TypeErr w
  end.
(** [np.array(v, dtype=t)]: always a copy. *)
Definition is_int (t : option (ov T)) : bool :=
  match t with Some (OS s) => String.eqb s "int" || String.eqb s "np.int64" | _ => false end.
Definition as_array (w : world) (v : ov T) (t : option (ov T)) (k : ov T -> world -> ans) : ans :=
  match v with
  | ORef _ _ => read w v (fun a => new w true a k)
  | OVec l => k (OVec l) w
  | OIVec l => k (if is_int t then OIVec l else OVec (map (o_num _ _ W) l)) w
  | OL l => if is_int t then orfailo (ints l) TypeErr w (fun z => k (OIVec z) w) else orfailo (floats l) TypeErr w (fun z => k (OVec z) w)
  | _ => fail TypeErr w
  end.
Definition contiguous (w : world) (v : ov T) (k : ov T -> world -> ans) : ans :=
  match v with
  | ORef l vs => if o_plain _ _ W (fst w) l then k v w else read w v (fun a => new w true a k)
  | OVec _ | OMat _ => k v w
  | _ => fail TypeErr w
  end.
Fixpoint map2o {A B C} (f : A -> B -> C) (x : list A) (y : list B) : option (list C) :=
  match x, y with [], [] => Some [] | a :: x, b :: y => option_map (cons (f a b)) (map2o f x y) | _, _ => None end.
Definition arith (o : string) (a b : ov T) (w : world) (k : ov T -> world -> ans) : ans :=
  match a, b with
  | OI x, OI y => if String.eqb o "+" then k (OI (o_add _ _ W x y)) w else fail TypeErr w
  | OL x, OL y => if String.eqb o "+" then k (OL (x ++ y)%list) w else fail TypeErr w
  | OVec x, OVec y => if String.eqb o "-" then orfailo (map2o (o_sub _ _ W) x y) ValueErr w (fun l => k (OVec l) w) else fail TypeErr w
  | OVec x, OIVec y => if String.eqb o "/" then orfailo (map2o (fun a n => o_div _ _ W a (o_num _ _ W n)) x y) ValueErr w (fun l => k (OVec l) w) else fail TypeErr w
  | _, _ => fail TypeErr w
  end.
Definition compare (o : string) (a b : ov T) : option bool :=
  if String.eqb o "is" then match b with ONone => Some match a with ONone => true | _ => false end | _ => None end
  else if String.eqb o "is not" then match b with ONone => Some match a with ONone => false | _ => true end | _ => None end
  else match a, b with
       | OI x, OI y => if String.eqb o "==" then Some (o_eqb _ _ W x y) else if String.eqb o "!=" then Some (negb (o_eqb _ _ W x y)) else None
       | _, _ => None
       end.
Definition attr_of (w : world) (v : ov T) (s : string) (k : ov T -> ans) : ans :=
  if String.eqb s "ndim" then
    match v with OVec _ | OIVec _ => k (OI 1) | _ => read w v (fun a => k (OI (andim a))) end
  else if String.eqb s "shape" then
    match v with OVec l => k (OL [OI (zlen l)]) | OIVec l => k (OL [OI (zlen l)]) | _ => read w v (fun a => k (OL (map OI (ashape a)))) end
  else if String.eqb s "dtype" then k (OS "float")
  else fail TypeErr w.
Definition subscript (w : world) (v i : ov T) (k : ov T -> world -> ans) : ans :=
  match v, i with
  | OL l, OI z => orfailo (nth_error l (Z.to_nat (if (z <? 0)%Z then (zlen l + z)%Z else z))) IndexErr w (fun x => k x w)
  | OVec l, OI z => orfailo (nth_error l (Z.to_nat z)) IndexErr w (fun x => k (OF x) w)
  | OIVec l, OI z => orfailo (nth_error l (Z.to_nat z)) IndexErr w (fun x => k (OI x) w)
  | ORef _ _, OI 0 => read w v (fun a => orfail (o_first _ _ W a) w (fun r => of_py w r k))
  | _, _ => fail TypeErr w
  end.
(** [eval_cubic] and [eval_linear]: without and with an array for the result. *)
Definition evaluate (q : Z) (w : world) (vs : list (ov T)) (k : ov T -> world -> ans) : ans :=
  match vs with
  | [OL g; c; p] =>
      orfailo (grid_of g) TypeErr w (fun g => orfailo (pts_of p) TypeErr w (fun p => read w c (fun c =>
        orfail (o_eval _ _ W q g c p None) w (fun r => of_py w (fst r) k))))
  | [OL g; c; p; ORef l []] =>
      orfailo (grid_of g) TypeErr w (fun g => orfailo (pts_of p) TypeErr w (fun p => read w c (fun c => read w (ORef l []) (fun o =>
        orfail (o_eval _ _ W q g c p (Some o)) w (fun r =>
          match snd r with Some o => k ONone (o_write _ _ W (fst w) l o, snd w) | None => fail TypeErr w end)))))
  | _ => fail TypeErr w
  end.
Definition gradient (d : Z) (w : world) (vs : list (ov T)) (k : ov T -> world -> ans) : ans :=
  match vs with
  | [OVec a; OVec b; OIVec n; c; OMat p; ORef l []; ORef m []] =>
      read w c (fun c => read w (ORef l []) (fun v => read w (ORef m []) (fun dv =>
        orfail (o_grad _ _ W d a b n c p v dv) w (fun r => k ONone (o_write _ _ W (o_write _ _ W (fst w) l (fst r)) m (snd r), snd w)))))
  | _ => fail TypeErr w
  end.
Definition filter1 (d : Z) (w : world) (vs : list (ov T)) (k : ov T -> world -> ans) : ans :=
  match vs with
  | [OVec dinv; c] => read w c (fun c => orfail (o_filter _ _ W d dinv c) w (fun r => new w true r k))
  | _ => fail TypeErr w
  end.

(** Functions of Python, numpy and the compiled modules. *)
Definition library (f : string) (vs : list (ov T)) (kws : list (string * ov T)) (w : world) (k : ov T -> world -> ans) : ans :=
  let t := look kws "dtype" in
  match vs with
  | [v] =>
      if String.eqb f "len" then orfailo (length_of v) TypeErr w (fun n => k (OI n) w)
      else if String.eqb f "list" then orfailo (items v) TypeErr w (fun l => k (OL l) w)
      else if String.eqb f "tuple" then orfailo (items v) TypeErr w (fun l => k (OL l) w)
      else if String.eqb f "range" then match v with OI n => k (OL (map OI (zrange n))) w | _ => fail TypeErr w end
      else if String.eqb f "np.array" then as_array w v t k
      else if String.eqb f "np.ascontiguousarray" then contiguous w v k
      else if String.eqb f "np.isfinite" then
        match v with OVec l => k (OB (o_finite1 _ _ W l)) w | _ => read w v (fun a => k (OB (o_finite _ _ W a)) w) end
      else if String.eqb f "np.all" then match v with OB b => k (OB b) w | _ => fail TypeErr w end
      else if String.eqb f "np.atleast_2d" then match v with OVec l => k (OMat (mkArr [1; fst (o_row _ _ W l)] (snd (o_row _ _ W l)))) w | _ => fail TypeErr w end
      else if String.eqb f "np.zeros" then orfailo (shape_of v) TypeErr w (fun sh => new w true (o_zeros _ _ W sh) k)
      else if String.eqb f "np.empty" then orfailo (shape_of v) TypeErr w (fun sh => new w true (o_empty _ _ W sh) k)
      else fail NameErr w
  | _ =>
      if String.eqb f "eval_cubic" then evaluate 3 w vs k
      else if String.eqb f "eval_linear" then evaluate 1 w vs k
      else if String.eqb f "filter_coeffs_1d" then filter1 1 w vs k
      else if String.eqb f "filter_coeffs_2d" then filter1 2 w vs k
      else if String.eqb f "filter_coeffs_3d" then filter1 3 w vs k
      else if String.eqb f "filter_coeffs_4d" then filter1 4 w vs k
      else if String.eqb f "vec_eval_cubic_splines_G_1" then gradient 1 w vs k
      else if String.eqb f "vec_eval_cubic_splines_G_2" then gradient 2 w vs k
      else if String.eqb f "vec_eval_cubic_splines_G_3" then gradient 3 w vs k
      else if String.eqb f "vec_eval_cubic_splines_G_4" then gradient 4 w vs k
      else if String.eqb f "mlinspace" then
        match vs with [OVec a; OVec b; OIVec n] => orfail (o_mlinspace _ _ W a b n) w (fun m => new w true m k) | _ => fail TypeErr w end
      else fail NameErr w
  end.
(** Methods of arrays. *)
Definition array_method (v : ov T) (m : string) (vs : list (ov T)) (w : world) (k : ov T -> world -> ans) : ans :=
  if String.eqb m "reshape" then
    match vs with [s] => orfailo (shape_of s) TypeErr w (fun sh => reshape w v sh k) | _ => fail TypeErr w end
  else if String.eqb m "tolist" then orfailo (items v) TypeErr w (fun l => k (OL l) w)
  else if String.eqb m "ravel" then read w v (fun a => orfail (o_ravel _ _ W a) w (fun b => new w true b k))
  else fail NameErr w.

(** Parameters: positional, by name, defaults (constants or names of types). *)
Definition default (e : expr) : option (ov T) :=
  match e with
  | ENone => Some ONone | ETrue => Some (OB true) | EFalse => Some (OB false)
  | _ => option_map OS (dotted e)
  end.
Fixpoint bind_params (ps : list (string * option expr)) (vs : list (ov T)) (kws : list (string * ov T)) : option env :=
  match ps, vs with
  | [], [] => Some []
  | (x, _) :: ps, v :: vs => option_map (cons (x, v)) (bind_params ps vs kws)
  | (x, d) :: ps, [] =>
      match look kws x with
      | Some v => option_map (cons (x, v)) (bind_params ps [] kws)
      | None => match d with Some d => match default d with Some v => option_map (cons (x, v)) (bind_params ps [] kws) | None => None end | None => None end
      end
  | [], _ :: _ => None
  end.

(** [cls]: the body of the class of [self]. *)
Variable cls : list stmt.

Fixpoint ev (n : nat) (E : env) (w : world) (e : expr) (k : ov T -> world -> ans) {struct n} : ans :=
  match n with
  | O => fail FuelErr w
  | S n =>
      match e with
      | EName x => match look E x with Some v => k v w | None => k (OS (if String.eqb x "numpy" then "np" else x)) w end
      | EInt z => k (OI z) w
      | EStr s => k (OS s) w
      | ENone => k ONone w | ETrue => k (OB true) w | EFalse => k (OB false) w
      | ETup l | EList l => evs n E w l (fun vs w => k (OL vs) w)
      | ENeg (EInt z) => k (OI (- z)) w
      | ENot a => ev n E w a (fun v w => orfailo (truth v) TypeErr w (fun b => k (OB (negb b)) w))
      | EBin o a b => ev n E w a (fun x w => ev n E w b (fun y w => arith o x y w k))
      | ECmp a [(o, b)] => ev n E w a (fun x w => ev n E w b (fun y w => orfailo (compare o x y) TypeErr w (fun b => k (OB b) w)))
      | EAttr a s =>
          ev n E w a (fun v w =>
            match v with
            | OSelf =>
                match look (snd w) s with
                | Some v => k v w
                | None => match class_attr cls s with
                          | Some v => k v w
                          | None => if is_property cls s then callm n s [] [] w k else fail NameErr w
                          end
                end
            | OS m => k (OS (m ++ "." ++ s)) w
            | _ => attr_of w v s (fun v => k v w)
            end)
      (* a.shape[i] *)
      | ESub (EAttr a s) [i] =>
          ev n E w a (fun v w =>
            match v with
            | ORef _ _ => if String.eqb s "shape"
                          then ev n E w i (fun j w => match j with OI z => read w v (fun a => orfail (o_dim _ _ W (ashape a) z) w (fun n => k (OI n) w)) | _ => fail TypeErr w end)
                          else fail TypeErr w
            | _ => ev n E w (EAttr a s) (fun v w => ev n E w i (fun i w => subscript w v i k))
            end)
      | ESub a [EEllipsis; i] =>
          ev n E w a (fun v w => ev n E w i (fun i w =>
            match i with OI z => read w v (fun a => orfail (o_comp _ _ W a z) w (fun b => new w false b k)) | _ => fail TypeErr w end))
      | ESub a [i] => ev n E w a (fun v w => ev n E w i (fun i w => subscript w v i k))
      | EComp e (EName x) it None =>
          ev n E w it (fun v w => orfailo (items v) TypeErr w (fun l => comp n E w e x l [] (fun vs w => k (OL vs) w)))
      | ECall f args kws =>
          evs n E w args (fun vs w => evs n E w (map snd kws) (fun ks w =>
            let kws := combine (map fst kws) ks in
            match f with
            | EName s => match find_def P s with Some _ => callf n s vs kws w k | None => library s vs kws w k end
            | EAttr a m =>
                ev n E w a (fun v w =>
                  match v with
                  | OSelf => callm n m vs kws w k
                  | OS p => library (p ++ "." ++ m) vs kws w k
                  | _ => array_method v m vs w k
                  end)
            | _ => fail TypeErr w
            end))
      | _ => fail TypeErr w
      end
  end
with evs (n : nat) (E : env) (w : world) (l : list expr) (k : list (ov T) -> world -> ans) {struct n} : ans :=
  match n with
  | O => fail FuelErr w
  | S n => match l with [] => k [] w | e :: l => ev n E w e (fun v w => evs n E w l (fun vs w => k (v :: vs) w)) end
  end
with comp (n : nat) (E : env) (w : world) (e : expr) (x : string) (l : list (ov T)) (acc : list (ov T)) (k : list (ov T) -> world -> ans) {struct n} : ans :=
  match n with
  | O => fail FuelErr w
  | S n => match l with [] => k (rev acc) w | v :: l => ev n (set_var E x v) w e (fun u w => comp n E w e x l (u :: acc) k) end
  end
(** A function of the module, a method. *)
with callf (n : nat) (f : string) (vs : list (ov T)) (kws : list (string * ov T)) (w : world) (k : ov T -> world -> ans) {struct n} : ans :=
  match n with
  | O => fail FuelErr w
  | S n =>
      match find_def P f with
      | Some (ps, b) => orfailo (bind_params ps vs kws) TypeErr w (fun E => ex n E w b k (fun _ w => k ONone w))
      | None => fail NameErr w
      end
  end
with callm (n : nat) (m : string) (vs : list (ov T)) (kws : list (string * ov T)) (w : world) (k : ov T -> world -> ans) {struct n} : ans :=
  match n with
  | O => fail FuelErr w
  | S n =>
      match find_method cls m with
      | Some (ps, b) => orfailo (bind_params ps (OSelf :: vs) kws) TypeErr w (fun E => ex n E w b k (fun _ w => k ONone w))
      | None => fail NameErr w
      end
  end
with ex (n : nat) (E : env) (w : world) (b : list stmt) (ret : ov T -> world -> ans) (next : env -> world -> ans) {struct n} : ans :=
  match n with
  | O => fail FuelErr w
  | S n =>
      match b with
      | [] => next E w
      | s :: b =>
          let go E w := ex n E w b ret next in
          match s with
          | SExpr (EStr _) | SImport | SPass => go E w
          | SExpr e => ev n E w e (fun _ w => go E w)
          | SAssign [EName x] e => ev n E w e (fun v w => go (set_var E x v) w)
          | SAssign [ETup [EName x; EName y]] e =>
              ev n E w e (fun v w => match v with OL [a; b] => go (set_var (set_var E x a) y b) w | _ => fail ValueErr w end)
          | SAssign [EAttr (EName s) x] e =>
              match look E s with
              | Some OSelf => ev n E w e (fun v w => go E (fst w, set_var (snd w) x v))
              | _ => fail TypeErr w
              end
          | SAssign [ESub (EName x) [EEllipsis; i]] e =>
              ev n E w e (fun v w => ev n E w i (fun i w =>
                match look E x, i with
                | Some (ORef l []), OI z => read w (ORef l []) (fun a => read w v (fun c => orfail (o_setcomp _ _ W a z c) w (fun a => go E (o_write _ _ W (fst w) l a, snd w))))
                | _, _ => fail TypeErr w
                end))
          | SIf c b1 b2 => ev n E w c (fun v w => orfailo (truth v) TypeErr w (fun t => if t then ex n E w b1 ret go else ex n E w b2 ret go))
          | SFor (EName x) (ECall (EName r) [e] []) body =>
              if String.eqb r "range" then ev n E w e (fun v w => match v with OI z => F n E w x z body ret go | _ => fail TypeErr w end)
              else fail TypeErr w
          | SRet (Some e) => ev n E w e ret
          | SRet None => ret ONone w
          | SAssert e => ev n E w e (fun v w => orfailo (truth v) TypeErr w (fun t => if t then go E w else fail AssertErr w))
          | SRaise _ => fail ValueErr w
          | _ => fail TypeErr w
          end
      end
  end.
End Interpreter.

(** Loops: [m] bounds how deep they are nested. *)
Section Loops.
Context {T H : Type}.
Variable W : ops T H.
Variable P cls : list stmt.
Fixpoint loops (m : nat) : nat -> list (string * ov T) -> world -> string -> Z -> list stmt -> (ov T -> world -> ans) -> (list (string * ov T) -> world -> ans) -> ans :=
  match m with
  | O => fun _ _ w _ _ _ _ _ => fail FuelErr w
  | S m => fun n E w x z body ret next =>
      (fix go (l : list Z) E w : ans :=
         match l with [] => next E w | i :: l => ex W P (loops m) cls n (set_var E x (OI i)) w body ret (fun E w => go l E w) end) (zrange z) E w
  end.
(** [self.m(vs)], and [C(vs)]: a new object of the class, in a state without object. *)
Definition method (m : string) (vs : list (ov T)) (kws : list (string * ov T)) (w : world (T := T) (H := H)) : ans :=
  callm W P (loops 3) cls 100 m vs kws w (fun v w => (w, Ok v)).
Definition func (f : string) (vs : list (ov T)) (kws : list (string * ov T)) (w : world (T := T) (H := H)) : ans :=
  callf W P (loops 3) cls 100 f vs kws w (fun v w => (w, Ok v)).
End Loops.
