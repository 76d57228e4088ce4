(** Interpreter of the Python subset of PySyntax.v.  Definitions only.

    It gives the meaning of the numerical (numba-compiled) functions of /repo.  What it leaves out:
    int64 and array dtypes other than float64/int64, strides, exceptions other than as an error
    value, lists as mutable objects (a list display is a tuple), slices with bounds, classes,
    generators, closures (a nested function sees its parameters and the names of the module).
    Anything outside of the subset evaluates to [Err TypeErr].

    Numba's [@overload(f)] is interpreted at run time: a call of [f] runs the overload on the values of
    the arguments where numba runs it on their types, and then calls the function it returns.  All
    other decorators are ignored. *)
From Coq Require Import ZArith List Bool String Ascii.
From Verif Require Import Base SplineModel PySyntax.
Import ListNotations.
Open Scope Z_scope.
Open Scope num_scope.

Section Sem.
Context {T : Type} {NT : Num T}.

(** An array object: of floats or of integers. *)
Inductive obj := OF (a : arr T) | OI (a : arr Z).

(** Values.  [PArr l v]: the array at heap location [l] seen through the view [v], which fixes some
    of its subscripts ([Some i]) and leaves others free ([None]); [[]] is the whole array.
    [PLit o]: an array that no program text can modify (a module constant, or a temporary).
    [PFun ps b]: a function defined inside of a function. *)
Inductive val :=
| PInt (z : Z) | PFlt (x : T) | PBool (b : bool) | PStr (s : string) | PNone
| PTup (l : list val)
| PArr (l : nat) (v : list (option Z))
| PLit (o : obj)
| PFun (ps : list (string * option expr)) (b : list stmt).

Definition heap := list obj.
Definition env := string -> option val.
Definition upd (E : env) (x : string) (v : val) : env := fun y => if String.eqb y x then Some v else E y.
Definition empty : env := fun _ => None.

Fixpoint hset (h : heap) (l : nat) (o : obj) : heap :=
  match h, l with
  | [], _ => []
  | _ :: r, O => o :: r
  | a :: r, S l => a :: hset r l o
  end.
Definition hget (h : heap) (l : nat) : res obj := match nth_error h l with Some o => Ok o | None => Err TypeErr end.

(** ** Views *)
Definition oshape (o : obj) : list Z := match o with OF a => ashape a | OI a => ashape a end.
Fixpoint vshape (v : list (option Z)) (sh : list Z) : list Z :=
  match v, sh with
  | [], _ => sh
  | None :: v, n :: sh => n :: vshape v sh
  | Some _ :: v, _ :: sh => vshape v sh
  | _, [] => []
  end.
Fixpoint vmerge (v : list (option Z)) (idx : list Z) : list Z :=
  match v with
  | [] => idx
  | Some i :: v => i :: vmerge v idx
  | None :: v => match idx with i :: idx => i :: vmerge v idx | [] => [] end
  end.
(** Subscripts of an array: an integer, [:] or [...]. *)
Inductive sidx := SIx (z : Z) | SAll | SDots.
(** Negative subscripts count from the end. *)
Definition wrap (n z : Z) : Z := if z <? 0 then z + n else z.
Fixpoint wraps (sh idx : list Z) : list Z :=
  match sh, idx with
  | n :: sh, z :: idx => wrap n z :: wraps sh idx
  | _, _ => idx
  end.
Fixpoint all_ix (l : list sidx) : option (list Z) :=
  match l with
  | [] => Some []
  | SIx z :: l => match all_ix l with Some r => Some (z :: r) | None => None end
  | _ => None
  end.
(** [...] stands for as many [:] as needed; missing trailing subscripts are [:]. *)
Fixpoint expand (n : nat) (l : list sidx) : list (option sidx) :=
  match l with
  | [] => repeat None n
  | SDots :: l => repeat None (n - List.length l) ++ expand (List.length l) l
  | s :: l => Some s :: expand (pred n) l
  end.
(** The view obtained by subscripting a view of shape [sh]; [inner] are the subscripts. *)
Fixpoint vsub (v : list (option Z)) (sh : list Z) (l : list (option sidx)) : list (option Z) :=
  match v, sh with
  | Some i :: v, _ :: sh => Some i :: vsub v sh l
  | None :: v, n :: sh =>
      match l with
      | Some (SIx z) :: l => Some (wrap n z) :: vsub v sh l
      | _ :: l => None :: vsub v sh l
      | [] => None :: vsub v sh []
      end
  | _, _ => []
  end.
Definition full (v : list (option Z)) (sh : list Z) : list (option Z) :=
  match v with [] => repeat None (List.length sh) | _ => v end.
(** Subscripts fixed by a view are inside the array. *)
Fixpoint vok (v : list (option Z)) (sh : list Z) : bool :=
  match v, sh with
  | Some i :: v, n :: sh => (0 <=? i) && (i <? n) && vok v sh
  | None :: v, _ :: sh => vok v sh
  | [], [] => true
  | _, _ => false
  end.

Definition oget (o : obj) (idx : list Z) : res val :=
  match o with
  | OF a => x <- aget a idx ;; Ok (PFlt x)
  | OI a => x <- aget a idx ;; Ok (PInt x)
  end.
Definition oset (o : obj) (idx : list Z) (v : val) : res obj :=
  match o, v with
  | OF a, PFlt x => a <- aset a idx x ;; Ok (OF a)
  | OF a, PInt z => a <- aset a idx (n_ofZ z) ;; Ok (OF a)
  | OI a, PInt z => a <- aset a idx z ;; Ok (OI a)
  | _, _ => Err TypeErr
  end.
(** The content of a view as a new array. *)
Definition oview (o : obj) (v : list (option Z)) : obj :=
  match o with
  | OF a => OF (mkArr (vshape v (ashape a)) (fun idx => acell a (vmerge v idx)))
  | OI a => OI (mkArr (vshape v (ashape a)) (fun idx => acell a (vmerge v idx)))
  end.
(** Does a base index belong to a view; the subscripts it leaves free. *)
Fixpoint vproj (v : list (option Z)) (idx : list Z) : option (list Z) :=
  match v, idx with
  | [], _ => Some idx
  | Some i :: v, z :: idx => if z =? i then vproj v idx else None
  | None :: v, z :: idx => match vproj v idx with Some r => Some (z :: r) | None => None end
  | _, [] => None
  end.
(** [a[view] = w] for an array [w] of the shape of the view. *)
Definition ofill (o : obj) (v : list (option Z)) (w : obj) : res obj :=
  match o, w with
  | OF a, OF b =>
      if list_eq_dec Z.eq_dec (vshape v (ashape a)) (ashape b)
      then Ok (OF (mkArr (ashape a) (fun idx => match vproj v idx with Some r => acell b r | None => acell a idx end)))
      else Err ValueErr
  | _, _ => Err TypeErr
  end.

(** The array behind a value, and its view. *)
Definition array_of (h : heap) (v : val) : res (obj * list (option Z)) :=
  match v with
  | PArr l w => o <- hget h l ;; Ok (o, w)
  | PLit o => Ok (o, [])
  | _ => Err TypeErr
  end.
Definition content (h : heap) (v : val) : res obj := '(o, w) <- array_of h v ;; Ok (oview o w).
Definition vdims (h : heap) (v : val) : res (list Z) := '(o, w) <- array_of h v ;; Ok (vshape w (oshape o)).

(** [v[idx]]: an element, or a view. *)
Definition subscript (h : heap) (v : val) (idx : list sidx) : res val :=
  match v with
  | PTup l => match idx with [SIx z] => lget l (wrap (zlen l) z) | _ => Err TypeErr end
  | _ =>
      '(o, w) <- array_of h v ;;
      let sh := vshape w (oshape o) in
      match all_ix idx with
      | Some zs =>
          if Nat.eqb (List.length zs) (List.length sh) then oget o (vmerge w (wraps sh zs))
          else if Nat.ltb (List.length zs) (List.length sh) then
            let w := vsub (full w (oshape o)) (oshape o) (expand (List.length sh) idx) in
            if vok w (oshape o) then match v with PArr l _ => Ok (PArr l w) | _ => Ok (PLit (oview o w)) end else Err IndexErr
          else Err TypeErr
      | None =>
          let w := vsub (full w (oshape o)) (oshape o) (expand (List.length sh) idx) in
          if vok w (oshape o) then match v with PArr l _ => Ok (PArr l w) | _ => Ok (PLit (oview o w)) end else Err IndexErr
      end
  end.
(** [a[view] = x] for a number [x]. *)
Definition ofill_num (o : obj) (v : list (option Z)) (x : T) : res obj :=
  match o with
  | OF a => Ok (OF (mkArr (ashape a) (fun idx => match vproj v idx with Some _ => x | None => acell a idx end)))
  | OI _ => Err TypeErr
  end.
Definition num (v : val) : res T := match v with PInt z => Ok (n_ofZ z) | PFlt x => Ok x | _ => Err TypeErr end.
(** [v[idx] = x]: an element; all the elements of a view, from an array or from one number. *)
Definition store (h : heap) (v : val) (idx : list sidx) (x : val) : res heap :=
  match v with
  | PArr l w =>
      o <- hget h l ;;
      let sh := vshape w (oshape o) in
      let fill :=
        let w := vsub (full w (oshape o)) (oshape o) (expand (List.length sh) idx) in
        if vok w (oshape o) then
          match num x with
          | Ok y => o' <- ofill_num o w y ;; Ok (hset h l o')
          | Err _ => b <- content h x ;; o' <- ofill o w b ;; Ok (hset h l o')
          end
        else Err IndexErr in
      match all_ix idx with
      | Some zs => if Nat.eqb (List.length zs) (List.length sh)
                   then o' <- oset o (vmerge w (wraps sh zs)) x ;; Ok (hset h l o')
                   else if Nat.ltb (List.length zs) (List.length sh) then fill else Err TypeErr
      | None => fill
      end
  | _ => Err TypeErr
  end.

(** ** Operators *)
(** [x ** k]: a product, for a small literal exponent as numba compiles it. *)
Definition pow_pos (x : T) (k : Z) : T := Nat.iter (Z.to_nat (k - 1)) (fun a => a *! x) x.
Definition arith (o : string) (a b : val) : res val :=
  let ii (f : Z -> Z -> Z) (g : T -> T -> T) :=
    match a, b with
    | PInt x, PInt y => Ok (PInt (f x y))
    | _, _ => x <- num a ;; y <- num b ;; Ok (PFlt (g x y))
    end in
  if String.eqb o "+" then ii Z.add n_add
  else if String.eqb o "-" then ii Z.sub n_sub
  else if String.eqb o "*" then ii Z.mul n_mul
  else if String.eqb o "/" then x <- num a ;; y <- num b ;; q <- divE x y ;; Ok (PFlt q)
  else if String.eqb o "//" then
    match a, b with PInt x, PInt y => if y =? 0 then Err ZeroDivErr else Ok (PInt (x / y)) | _, _ => Err TypeErr end
  else if String.eqb o "%" then
    match a, b with PInt x, PInt y => if y =? 0 then Err ZeroDivErr else Ok (PInt (x mod y)) | _, _ => Err TypeErr end
  else if String.eqb o "**" then
    match a, b with
    | PFlt x, PInt k => if k <? 0 then Err TypeErr else Ok (PFlt (if k =? 0 then n_ofZ 1 else pow_pos x k))
    | PInt x, PInt k => if k <? 0 then Err TypeErr else Ok (PInt (x ^ k))
    | _, _ => Err TypeErr
    end
  else Err TypeErr.
(** An array of floats times a number. *)
Definition arith_arr (h : heap) (o : string) (a b : val) : res val :=
  w <- content h a ;; y <- num b ;;
  match w with
  | OF m => if String.eqb o "*" then Ok (PLit (OF (mkArr (ashape m) (fun idx => acell m idx *! y)))) else Err TypeErr
  | OI _ => Err TypeErr
  end.
Definition is_array (v : val) : bool := match v with PArr _ _ | PLit _ => true | _ => false end.
Definition binop (h : heap) (o : string) (a b : val) : res val :=
  if is_array a then arith_arr h o a b else arith o a b.

Definition compare (o : string) (a b : val) : res bool :=
  let nn (f : Z -> Z -> bool) (g : T -> T -> bool) :=
    match a, b with
    | PInt x, PInt y => Ok (f x y)
    | _, _ => x <- num a ;; y <- num b ;; Ok (g x y)
    end in
  if String.eqb o "<" then nn Z.ltb n_ltb
  else if String.eqb o "<=" then nn Z.leb n_leb
  else if String.eqb o ">" then nn Z.gtb (fun x y => n_ltb y x)
  else if String.eqb o ">=" then nn Z.geb (fun x y => n_leb y x)
  else if String.eqb o "==" then
    match a, b with PInt x, PInt y => Ok (x =? y) | PStr x, PStr y => Ok (String.eqb x y) | _, _ => Err TypeErr end
  else if String.eqb o "is" then
    match a, b with PNone, PNone => Ok true | _, PNone => Ok false | _, _ => Err TypeErr end
  else if String.eqb o "is not" then
    match a, b with PNone, PNone => Ok false | _, PNone => Ok true | _, _ => Err TypeErr end
  else Err TypeErr.
Definition truth (v : val) : res bool :=
  match v with PBool b => Ok b | PInt z => Ok (negb (z =? 0)) | PNone => Ok false | _ => Err TypeErr end.

(** ** Library functions *)
Fixpoint ints (l : list val) : option (list Z) :=
  match l with
  | [] => Some []
  | PInt z :: l => match ints l with Some r => Some (z :: r) | None => None end
  | _ => None
  end.
Definition shape_of (v : val) : res (list Z) :=
  match v with
  | PInt z => Ok [z]
  | PTup l => match ints l with Some s => Ok s | None => Err TypeErr end
  | _ => Err TypeErr
  end.
Fixpoint floats (l : list val) : res (list T) :=
  match l with [] => Ok [] | v :: l => x <- num v ;; r <- floats l ;; Ok (x :: r) end.
Fixpoint rows_of (l : list val) : res (list (list T)) :=
  match l with
  | [] => Ok []
  | PTup r :: l => x <- floats r ;; q <- rows_of l ;; Ok (x :: q)
  | _ => Err TypeErr
  end.
(** [array([...])] and [array([[...], ...])] of floats. *)
Definition make_array (v : val) : res obj :=
  match v with
  | PTup (PTup r :: l) =>
      m <- rows_of (PTup r :: l) ;;
      Ok (OF (mkArr [zlen m; zlen r]
        (fun idx => match idx with [i; j] => nth (Z.to_nat j) (nth (Z.to_nat i) m []) (n_ofZ 0) | _ => n_ofZ 0 end)))
  | PTup l =>
      m <- floats l ;;
      Ok (OF (mkArr [zlen m] (fun idx => match idx with [i] => nth (Z.to_nat i) m (n_ofZ 0) | _ => n_ofZ 0 end)))
  | _ => Err TypeErr
  end.
(** The elements of a 1-d array of floats. *)
Definition elements (h : heap) (v : val) : res (list T) :=
  o <- content h v ;;
  match o with
  | OF a => match ashape a with [n] => mapM (fun i => aget a [i]) (zrange n) | _ => Err TypeErr end
  | OI _ => Err TypeErr
  end.
Definition extremum (f : T -> T -> T) (l : list T) : res T :=
  match l with [] => Err ValueErr | a :: r => Ok (fold_left f r a) end.
Definition alloc (h : heap) (o : obj) : val * heap := (PArr (List.length h) [], h ++ [o]).
Definition range_of (l : list val) : res (list Z) :=
  match l with
  | [PInt n] => Ok (zrange n)
  | [PInt a; PInt b] => Ok (zrange2 a b)
  | [PInt a; PInt b; PInt s] => if s =? -1 then Ok (zrange_down a b) else Err TypeErr
  | _ => Err TypeErr
  end.
(** [None]: not a library function. *)
Definition builtin (f : string) (l : list val) (h : heap) : option (res (val * heap)) :=
  if String.eqb f "floor" then
    Some (match l with [PFlt x] => Ok (PInt (n_floor x), h) | _ => Err TypeErr end)
  else if String.eqb f "int" then
    Some (match l with [PInt z] => Ok (PInt z, h) | _ => Err TypeErr end)
  else if String.eqb f "max" then
    Some (match l with
          | [PInt a; PInt b] => Ok (PInt (Z.max a b), h)
          | [PFlt a; PFlt b] => Ok (PFlt (pymax a b), h)
          | [v] => x <- elements h v ;; m <- extremum pymax x ;; Ok (PFlt m, h)
          | _ => Err TypeErr end)
  else if String.eqb f "min" then
    Some (match l with
          | [PInt a; PInt b] => Ok (PInt (Z.min a b), h)
          | [PFlt a; PFlt b] => Ok (PFlt (pymin a b), h)
          | [v] => x <- elements h v ;; m <- extremum pymin x ;; Ok (PFlt m, h)
          | _ => Err TypeErr end)
  else if String.eqb f "range" then
    Some (r <- range_of l ;; Ok (PTup (map PInt r), h))
  else if String.eqb f "zeros" then
    Some (match l with [v] => s <- shape_of v ;; Ok (alloc h (OF (azeros s))) | _ => Err TypeErr end)
  else if String.eqb f "array" then
    Some (match l with [v] => o <- make_array v ;; Ok (alloc h o) | _ => Err TypeErr end)
  else if String.eqb f "len" then
    Some (match l with
          | [PTup l] => Ok (PInt (zlen l), h)
          | [v] => s <- vdims h v ;; n <- lget s 0 ;; Ok (PInt n, h)
          | _ => Err TypeErr end)
  else if String.eqb f "searchsorted" then
    Some (match l with [v; PFlt x] => e <- elements h v ;; Ok (PInt (searchsorted e x), h) | _ => Err TypeErr end)
  else if String.eqb f "asarray" then
    Some (match l with [v] => if is_array v then Ok (v, h) else Err TypeErr | _ => Err TypeErr end)
  else if String.eqb f "ndim" then
    Some (match l with [v] => d <- vdims h v ;; Ok (PInt (zlen d), h) | _ => Err TypeErr end)
  else if String.eqb f "literally" then
    Some (match l with [PInt z] => Ok (PInt z, h) | _ => Err TypeErr end)
  else None.

(** ** Expressions.  [G]: module constants; [call]: functions of the module. *)
Variable G : env.
Variable call : string -> list val -> list (string * val) -> heap -> res (val * heap).

Definition lookup (E : env) (x : string) : res val :=
  match E x with Some v => Ok v | None => match G x with Some v => Ok v | None => Err NameErr end end.
Definition literal (m e : Z) : T :=
  if e <=? 0 then n_ofZ (m * 10 ^ (- e))
  else if m mod 10 ^ e =? 0 then n_ofZ (m / 10 ^ e) else n_ofZ m /! n_ofZ (10 ^ e).
(** [-e]: literals are folded, as the compiler does. *)
Definition negate (e : expr) (v : val) : res val :=
  match e, v with
  | EFlt m x, _ => Ok (PFlt (literal (- m) x))
  | _, PInt z => Ok (PInt (- z))
  | _, _ => Err TypeErr
  end.
(** [np.zeros], [numpy.zeros], [zeros]: the module prefix is dropped. *)
Definition callee (f : expr) : option string :=
  match f with
  | EName s => Some s
  | EAttr (EName m) s => if (String.eqb m "np" || String.eqb m "numpy" || String.eqb m "math" || String.eqb m "numba")%string then Some s else None
  | _ => None
  end.
Definition attribute (h : heap) (v : val) (s : string) : res val :=
  if String.eqb s "shape" then d <- vdims h v ;; Ok (PTup (map PInt d))
  else if String.eqb s "ndim" then d <- vdims h v ;; Ok (PInt (zlen d))
  else if String.eqb s "size" then d <- vdims h v ;; Ok (PInt (fold_right Z.mul 1 d))
  else if String.eqb s "types" then match v with PTup _ => Ok v | _ => Err TypeErr end
  else if String.eqb s "literal_value" then match v with PInt _ => Ok v | _ => Err TypeErr end
  else Err TypeErr.
(** [isinstance(e, numba.types.Literal)], in an overload whose caller used [numba.literally]. *)
Definition literal_test (f : expr) (args : list expr) : bool :=
  match f with
  | EName s => if String.eqb s "isinstance"
               then match args with [_; EAttr _ l] => String.eqb l "Literal" | _ => false end else false
  | _ => false
  end.
Definition unstar (v : val) : res (list val) := match v with PTup l => Ok l | _ => Err TypeErr end.
Definition to_sidx (v : val) : res sidx := match v with PInt z => Ok (SIx z) | _ => Err TypeErr end.

Fixpoint eval (E : env) (e : expr) (h : heap) {struct e} : res (val * heap) :=
  let evals := fix evals (l : list expr) (h : heap) : res (list val * heap) :=
    match l with
    | [] => Ok ([], h)
    | EStar a :: r => '(v, h) <- eval E a h ;; l <- unstar v ;; '(vs, h) <- evals r h ;; Ok (l ++ vs, h)
    | a :: r => '(v, h) <- eval E a h ;; '(vs, h) <- evals r h ;; Ok (v :: vs, h)
    end in
  let evalk := fix evalk (l : list (string * expr)) (h : heap) : res (list (string * val) * heap) :=
    match l with
    | [] => Ok ([], h)
    | (s, a) :: r => '(v, h) <- eval E a h ;; '(vs, h) <- evalk r h ;; Ok ((s, v) :: vs, h)
    end in
  let subs := fix subs (l : list expr) (h : heap) : res (list sidx * heap) :=
    match l with
    | [] => Ok ([], h)
    | a :: r =>
        '(s, h) <- (match a with
                    | ESlice None None None => Ok (SAll, h)
                    | EEllipsis => Ok (SDots, h)
                    | _ => '(v, h) <- eval E a h ;; s <- to_sidx v ;; Ok (s, h)
                    end) ;;
        '(q, h) <- subs r h ;; Ok (s :: q, h)
    end in
  let chain := fix chain (v : val) (l : list (string * expr)) (h : heap) : res (bool * heap) :=
    match l with
    | [] => Ok (true, h)
    | (o, a) :: r =>
        '(w, h) <- eval E a h ;; b <- compare o v w ;;
        if b : bool then chain w r h else Ok (false, h)
    end in
  match e with
  | EName x => v <- lookup E x ;; Ok (v, h)
  | EInt z => Ok (PInt z, h)
  | EFlt m x => Ok (PFlt (literal m x), h)
  | EStr s => Ok (PStr s, h)
  | ENone => Ok (PNone, h)
  | ETrue => Ok (PBool true, h)
  | EFalse => Ok (PBool false, h)
  | EBin o a b => '(x, h) <- eval E a h ;; '(y, h) <- eval E b h ;; v <- binop h o x y ;; Ok (v, h)
  | ENeg a => '(x, h) <- eval E a h ;; v <- negate a x ;; Ok (v, h)
  | ENot a => '(x, h) <- eval E a h ;; b <- truth x ;; Ok (PBool (negb b), h)
  | ECmp a l => '(x, h) <- eval E a h ;; '(b, h) <- chain x l h ;; Ok (PBool b, h)
  | EAnd a b => '(x, h) <- eval E a h ;; t <- truth x ;; if t : bool then eval E b h else Ok (x, h)
  | EOr a b => '(x, h) <- eval E a h ;; t <- truth x ;; if t : bool then Ok (x, h) else eval E b h
  | EIfE c a b => '(x, h) <- eval E c h ;; t <- truth x ;; if t : bool then eval E a h else eval E b h
  | ECall f args kws =>
      if literal_test f args then Ok (PBool true, h) else
      match callee f with
      | None => Err TypeErr
      | Some s =>
          '(vs, h) <- evals args h ;; '(ks, h) <- evalk kws h ;;
          match builtin s vs h with
          | Some r => match ks with [] => r | _ => Err TypeErr end
          | None => call s vs ks h
          end
      end
  | EAttr a s => '(x, h) <- eval E a h ;; v <- attribute h x s ;; Ok (v, h)
  | ESub a l => '(x, h) <- eval E a h ;; '(i, h) <- subs l h ;; v <- subscript h x i ;; Ok (v, h)
  | ETup l => '(vs, h) <- evals l h ;; Ok (PTup vs, h)
  | EList l => '(vs, h) <- evals l h ;; Ok (PTup vs, h)
  | _ => Err TypeErr
  end.
(** The list forms of [eval], as functions of their own. *)
Definition evals (E : env) := fix evals (l : list expr) (h : heap) : res (list val * heap) :=
  match l with
  | [] => Ok ([], h)
  | EStar a :: r => '(v, h) <- eval E a h ;; l <- unstar v ;; '(vs, h) <- evals r h ;; Ok (l ++ vs, h)
  | a :: r => '(v, h) <- eval E a h ;; '(vs, h) <- evals r h ;; Ok (v :: vs, h)
  end.
Definition subs (E : env) := fix subs (l : list expr) (h : heap) : res (list sidx * heap) :=
  match l with
  | [] => Ok ([], h)
  | a :: r =>
      '(s, h) <- (match a with
                  | ESlice None None None => Ok (SAll, h)
                  | EEllipsis => Ok (SDots, h)
                  | _ => '(v, h) <- eval E a h ;; s <- to_sidx v ;; Ok (s, h)
                  end) ;;
      '(q, h) <- subs r h ;; Ok (s :: q, h)
  end.

(** ** Statements *)
Inductive sig := Nxt | Ret (v : val) | Brk | Cnt.
Definition state := (sig * env * heap)%type.

(** Assignment to a name, to an array element or slice, or to a tuple of names. *)
Fixpoint assign_names (E : env) (l : list expr) (vs : list val) : res env :=
  match l, vs with
  | [], [] => Ok E
  | EName x :: l, v :: vs => assign_names (upd E x v) l vs
  | [], _ | _, [] => Err ValueErr       (* too many or not enough values to unpack *)
  | _, _ => Err TypeErr
  end.
Definition assign (E : env) (h : heap) (t : expr) (v : val) : res (env * heap) :=
  match t with
  | EName x => Ok (upd E x v, h)
  | ESub a l => '(x, h) <- eval E a h ;; '(i, h) <- subs E l h ;; h <- store h x i v ;; Ok (E, h)
  | ETup l => match v with PTup vs => E <- assign_names E l vs ;; Ok (E, h) | _ => Err TypeErr end
  | _ => Err TypeErr
  end.
Fixpoint assign_all (E : env) (h : heap) (ts : list expr) (v : val) : res (env * heap) :=
  match ts with
  | [] => Ok (E, h)
  | t :: ts => '(E, h) <- assign E h t v ;; assign_all E h ts v
  end.
Definition raised (e : option expr) : err :=
  match e with
  | Some (ECall (EName s) _ _) => if String.eqb s "ValueError" then ValueErr else NotImplErr
  | _ => NotImplErr
  end.
(** [for t in l: body] *)
Fixpoint iterate (body : val -> env -> heap -> res state) (l : list val) (E : env) (h : heap) : res state :=
  match l with
  | [] => Ok (Nxt, E, h)
  | v :: l =>
      '(s, E, h) <- body v E h ;;
      match s with
      | Nxt | Cnt => iterate body l E h
      | Brk => Ok (Nxt, E, h)
      | Ret _ => Ok (s, E, h)
      end
  end.
Fixpoint repeat_while (n : nat) (test : env -> heap -> res (bool * heap)) (body : env -> heap -> res state)
  (E : env) (h : heap) : res state :=
  match n with
  | O => Err FuelErr
  | S n =>
      '(b, h) <- test E h ;;
      if b : bool then
        '(s, E, h) <- body E h ;;
        match s with
        | Nxt | Cnt => repeat_while n test body E h
        | Brk => Ok (Nxt, E, h)
        | Ret _ => Ok (s, E, h)
        end
      else Ok (Nxt, E, h)
  end.
(** Bound on the iterations of a [while] loop. *)
Variable fuel : nat.

Fixpoint exec (s : stmt) (E : env) (h : heap) {struct s} : res state :=
  let block := fix block (l : list stmt) (E : env) (h : heap) : res state :=
    match l with
    | [] => Ok (Nxt, E, h)
    | s :: l =>
        '(g, E, h) <- exec s E h ;;
        match g with Nxt => block l E h | _ => Ok (g, E, h) end
    end in
  match s with
  | SAssign ts e => '(v, h) <- eval E e h ;; '(E, h) <- assign_all E h ts v ;; Ok (Nxt, E, h)
  | SAug o t e =>
      '(x, h) <- eval E t h ;; '(y, h) <- eval E e h ;; v <- binop h o x y ;;
      '(E, h) <- assign E h t v ;; Ok (Nxt, E, h)
  | SExpr e => '(_, h) <- eval E e h ;; Ok (Nxt, E, h)
  | SIf c b1 b2 =>
      '(x, h) <- eval E c h ;; t <- truth x ;;
      if t : bool then block b1 E h else block b2 E h
  | SFor t it b =>
      '(x, h) <- eval E it h ;;
      match x with
      | PTup l => iterate (fun v E h => '(E, h) <- assign E h t v ;; block b E h) l E h
      | _ => Err TypeErr
      end
  | SWhile c b =>
      repeat_while fuel (fun E h => '(x, h) <- eval E c h ;; t <- truth x ;; Ok (t, h)) (block b) E h
  | SRet None => Ok (Ret PNone, E, h)
  | SRet (Some e) => '(v, h) <- eval E e h ;; Ok (Ret v, E, h)
  | SPass | SImport => Ok (Nxt, E, h)
  | SBreak => Ok (Brk, E, h)
  | SContinue => Ok (Cnt, E, h)
  | SRaise e => Err (raised e)
  | SAssert e => '(x, h) <- eval E e h ;; t <- truth x ;; if t : bool then Ok (Nxt, E, h) else Err AssertErr
  | SDef f ps b => Ok (Nxt, upd E f (PFun ps b), h)
  | SDeco _ s => exec s E h
  | SClass _ _ => Ok (Nxt, E, h)
  | STry b1 b2 =>       (* the handler starts from the state before the failing block *)
      match block b1 E h with
      | Ok st => Ok st
      | Err FuelErr => Err FuelErr
      | Err _ => block b2 E h
      end
  end.
Definition block := fix block (l : list stmt) (E : env) (h : heap) : res state :=
  match l with
  | [] => Ok (Nxt, E, h)
  | s :: l =>
      '(g, E, h) <- exec s E h ;;
      match g with Nxt => block l E h | _ => Ok (g, E, h) end
  end.

(** A parameter [*args]. *)
Definition star_name (x : string) : option string :=
  match x with String c r => if Ascii.eqb c "*" then Some r else None | EmptyString => None end.
(** A call: bind the parameters (arguments, keyword arguments, constant defaults), run the body. *)
Fixpoint bind_params (ps : list (string * option expr)) (vs : list val) (ks : list (string * val)) (h : heap)
  : res (env * heap) :=
  match ps with
  | [] => match vs with [] => Ok (empty, h) | _ => Err TypeErr end
  | (x, d) :: ps =>
      match star_name x with
      | Some y => Ok (upd empty y (PTup vs), h)
      | None =>
          match vs with
          | v :: vs => '(E, h) <- bind_params ps vs ks h ;; Ok (upd E x v, h)
          | [] =>
              '(v, h) <- (match find (fun p => String.eqb (fst p) x) ks with
                          | Some (_, v) => Ok (v, h)
                          | None => match d with Some e => eval empty e h | None => Err TypeErr end
                          end) ;;
              '(E, h) <- bind_params ps [] ks h ;; Ok (upd E x v, h)
          end
      end
  end.
Definition call_body (ps : list (string * option expr)) (body : list stmt) (vs : list val) (ks : list (string * val))
  (h : heap) : res (val * heap) :=
  '(E, h) <- bind_params ps vs ks h ;;
  '(s, _, h) <- block body E h ;;
  match s with Ret v => Ok (v, h) | Nxt => Ok (PNone, h) | _ => Err TypeErr end.

End Sem.
Arguments val : clear implicits.
Arguments obj : clear implicits.
Arguments heap : clear implicits.
Arguments env : clear implicits.
Arguments sig : clear implicits.
Arguments state : clear implicits.

(** ** Modules *)
Section Module.
Context {T : Type} {NT : Num T}.

(** The last top-level definition of a name. *)
Definition the_def (s : stmt) : option (string * list (string * option expr) * list stmt) :=
  match s with
  | SDef f ps b | SDeco _ (SDef f ps b) => Some (f, ps, b)
  | _ => None
  end.
Fixpoint find_def (p : list stmt) (f : string) : option (list (string * option expr) * list stmt) :=
  match p with
  | [] => None
  | s :: r =>
      match find_def r f with
      | Some d => Some d
      | None => match the_def s with
                | Some (g, ps, b) => if String.eqb f g then Some (ps, b) else None
                | None => None
                end
      end
  end.

(** The definitions under [@overload(f, ...)], in the order of the text. *)
Definition is_overload (f : string) (e : expr) : bool :=
  match e with
  | ECall (EName o) (EName g :: _) _ | ECall (EAttr _ o) (EName g :: _) _ => String.eqb o "overload" && String.eqb f g
  | _ => false
  end.
Fixpoint overloads (p : list stmt) (f : string) : list (list (string * option expr) * list stmt) :=
  match p with
  | [] => []
  | SDeco e (SDef _ ps b) :: r => if is_overload f e then (ps, b) :: overloads r f else overloads r f
  | _ :: r => overloads r f
  end.
(** Can a function with parameters [ps] be called with [n] arguments and the keywords [ks]. *)
Definition accepts (ps : list (string * option expr)) (n : nat) (ks : list string) : bool :=
  Nat.leb n (List.length ps)
  && forallb (fun k => existsb (fun p => String.eqb (fst p) k) (skipn n ps)) ks
  && forallb (fun p => match snd p with Some _ => true | None => existsb (String.eqb (fst p)) ks end) (skipn n ps).

(** Calling the function [f] of the module [p]; [n] bounds the depth of nested calls and the number
    of iterations of [while] loops. *)
Fixpoint run (G : env T) (p : list stmt) (n : nat) (f : string) (vs : list (val T)) (ks : list (string * val T))
  (h : heap T) : res (val T * heap T) :=
  match n with
  | O => Err FuelErr
  | S n =>
      match overloads p f with
      | [] =>
          match find_def p f with
          | Some (ps, b) => call_body G (run G p n) n ps b vs ks h
          | None => Err NameErr
          end
      | os =>
          match find (fun o => accepts (fst o) (List.length vs) (map fst ks)) os with
          | Some (ps, b) =>
              '(v, _) <- call_body G (run G p n) n ps b vs ks h ;;
              match v with
              | PFun qs c => call_body G (run G p n) n qs c vs ks h
              | _ => Err TypeErr
              end
          | None => Err TypeErr
          end
      end
  end.

(** Module constants: the values of the names after running the top-level statements.  A statement that
    is outside of the subset is skipped, and so are the definitions; arrays become immutable (numba
    freezes the globals it reads). *)
Definition freeze (h : heap T) (v : val T) : val T :=
  match v with
  | PArr l w => match nth_error h l with Some o => PLit (oview o w) | None => v end
  | _ => v
  end.
Definition is_def (s : stmt) : bool := match s with SDef _ _ _ | SClass _ _ | SDeco _ _ => true | _ => false end.
Fixpoint toplevel (p : list stmt) (E : env T) (h : heap T) : env T * heap T :=
  match p with
  | [] => (E, h)
  | s :: p =>
      if is_def s then toplevel p E h
      else match exec empty (fun _ _ _ _ => Err NameErr) 0 s E h with
           | Ok (_, E', h') => toplevel p E' h'
           | Err _ => toplevel p E h
           end
  end.
Definition globals (p : list stmt) : env T :=
  let '(E, h) := toplevel p empty [] in
  fun x => match E x with Some v => Some (freeze h v) | None => None end.
End Module.
