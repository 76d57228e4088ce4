(** Interpreter of the Python subset in which the Smolyak modules of /repo are written: numbers, lists,
    dicts, generators, classes, and whole-array operations of numpy.  Definitions only.  This file models
    no function of /repo; it gives the meaning of the texts SrcSmolyak*.v.

    What it leaves out: objects are values (two names never share a list, an array or an object: a method
    or an assignment that changes one changes the name it is applied to), a generator and a range are the
    list of what they produce, a method called inside of an expression does not change its object,
    numbers are ints and floats, arrays are of floats, ints or bools, exceptions are error values.
    Anything outside of the subset evaluates to [Err TypeErr].  The modules of one package share one
    namespace. *)
From Coq Require Import ZArith List Bool String Ascii.
From Verif Require Import Base CompleteModel SmolyakModel PySyntax.
Import ListNotations.
Open Scope Z_scope.
Open Scope num_scope.

(** ** Arrays.  The cells outside of the shape are fixed, so that equal arrays are equal terms. *)
Definition tab {A} (z : A) (sh : list Z) (f : list Z -> A) : arr A := mkArr sh (fun idx => if inb sh idx then f idx else z).
Definition canon {T} {NT : Num T} (a : arr T) : arr T := tab (n_ofZ 0) (ashape a) (acell a).

(** Broadcasting: shapes are matched from the right, an axis of length 1 is repeated. *)
Fixpoint bzip (a b : list Z) : option (list Z) :=
  match a, b with
  | [], l | l, [] => Some l
  | x :: a, y :: b =>
      match bzip a b with
      | Some r => if x =? y then Some (x :: r) else if x =? 1 then Some (y :: r) else if y =? 1 then Some (x :: r) else None
      | None => None
      end
  end.
Definition bshape (a b : list Z) : option (list Z) := match bzip (rev a) (rev b) with Some l => Some (rev l) | None => None end.
Definition bidx (sh idx : list Z) : list Z :=
  map2 (fun n i => if n =? 1 then 0 else i) sh (skipn (List.length idx - List.length sh) idx).
Definition zipa {A B C} (z : C) (f : A -> B -> C) (a : arr A) (b : arr B) : res (arr C) :=
  match bshape (ashape a) (ashape b) with
  | Some sh => Ok (tab z sh (fun idx => f (acell a (bidx (ashape a) idx)) (acell b (bidx (ashape b) idx))))
  | None => Err ValueErr
  end.

(** Subscripts: an integer, [:], [...], [None], [a:b], a list of integers. *)
Inductive sidx := SI (z : Z) | SAll | SDots | SNew | SRange (a b : Z) | SFancy (l : list Z).
Definition wrap (n z : Z) : Z := if z <? 0 then z + n else z.
Definition consumes (s : sidx) : bool := match s with SNew => false | _ => true end.
(** [...] and missing trailing subscripts become [:]. *)
Fixpoint fill_dots (n : nat) (l : list sidx) : list sidx :=
  match l with
  | [] => repeat SAll n
  | SDots :: l => repeat SAll (n - List.length (filter consumes l)) ++ l
  | SNew :: l => SNew :: fill_dots n l
  | s :: l => s :: fill_dots (pred n) l
  end.
(** The shape of [a[l]]; [None]: out of range or outside of the subset. *)
Fixpoint sub_shape (sh : list Z) (l : list sidx) : res (list Z) :=
  match l, sh with
  | [], [] => Ok []
  | SNew :: l, _ => r <- sub_shape sh l ;; Ok (1 :: r)
  | SAll :: l, n :: sh => r <- sub_shape sh l ;; Ok (n :: r)
  | SI z :: l, n :: sh => if (0 <=? wrap n z) && (wrap n z <? n) then sub_shape sh l else Err IndexErr
  | _, _ => Err TypeErr
  end.
(** The subscripts in [a] of a cell of [a[l]]. *)
Fixpoint sub_idx (sh : list Z) (l : list sidx) (idx : list Z) : list Z :=
  match l, sh with
  | SNew :: l, _ => sub_idx sh l (tl idx)
  | SAll :: l, _ :: sh => hd 0 idx :: sub_idx sh l (tl idx)
  | SI z :: l, n :: sh => wrap n z :: sub_idx sh l idx
  | _, _ => []
  end.
(** Is a cell of [a] in [a[l]]; its subscripts there. *)
Fixpoint sub_inv (sh : list Z) (l : list sidx) (idx : list Z) : option (list Z) :=
  match l, sh, idx with
  | [], [], [] => Some []
  | SAll :: l, _ :: sh, i :: idx => match sub_inv sh l idx with Some r => Some (i :: r) | None => None end
  | SI z :: l, n :: sh, i :: idx => if i =? wrap n z then sub_inv sh l idx else None
  | _, _, _ => None
  end.
Definition get_sub {A} (z : A) (a : arr A) (l : list sidx) : res (arr A) :=
  let l := fill_dots (List.length (ashape a)) l in
  sh <- sub_shape (ashape a) l ;; Ok (tab z sh (fun idx => acell a (sub_idx (ashape a) l idx))).
(** [a[l] = w], [w] broadcast. *)
Definition set_sub {A} (z : A) (a : arr A) (l : list sidx) (w : arr A) : res (arr A) :=
  let l := fill_dots (List.length (ashape a)) l in
  sh <- sub_shape (ashape a) l ;;
  match bshape sh (ashape w) with
  | Some sh' =>
      if idx_eqb sh sh' then
        Ok (tab z (ashape a) (fun idx => match sub_inv (ashape a) l idx with Some r => acell w (bidx (ashape w) r) | None => acell a idx end))
      else Err ValueErr
  | None => Err ValueErr
  end.

Section Sem.
Context {T : Type} {NT : Num T}.

Inductive val :=
| VInt (z : Z) | VFlt (x : T) | VBool (b : bool) | VStr (s : string) | VNone
| VTup (l : list val) | VList (l : list val) | VDict (l : list (Z * val))
| VArr (a : arr T) | VIArr (a : arr Z) | VBArr (a : arr bool)
| VObj (c : string) (l : list (string * val)).

Definition env := string -> option val.
Definition upd (E : env) (x : string) (v : val) : env := fun y => if String.eqb y x then Some v else E y.
Definition empty : env := fun _ => None.

(** numpy's pi and cos, scipy's lu(B, permute_l=True), numpy's linalg.solve *)
Record externals := mkExt {
  x_pi : T; x_cos : T -> T; x_lu : arr T -> res (arr T * arr T); x_solve : arr T -> arr T -> res (arr T) }.
Variable X : externals.

Definition farr (sh : list Z) (f : list Z -> T) : val := VArr (tab (n_ofZ 0) sh f).
Definition iarr (sh : list Z) (f : list Z -> Z) : val := VIArr (tab 0 sh f).
Definition barr (sh : list Z) (f : list Z -> bool) : val := VBArr (tab false sh f).

(** ** Conversions *)
Fixpoint ints (l : list val) : res (list Z) :=
  match l with [] => Ok [] | VInt z :: l => r <- ints l ;; Ok (z :: r) | _ => Err TypeErr end.
Fixpoint floats (l : list val) : res (list T) :=
  match l with [] => Ok [] | VFlt x :: l => r <- floats l ;; Ok (x :: r) | _ => Err TypeErr end.
Definition vec {A} (d : A) (l : list A) : list Z -> A := fun idx => nth (Z.to_nat (hd 0 idx)) l d.
Definition fvec (l : list T) : val := farr [zlen l] (vec (n_ofZ 0) l).
Definition ivec (l : list Z) : val := iarr [zlen l] (vec 0 l).
Definition items (v : val) : res (list val) :=
  match v with
  | VTup l | VList l => Ok l
  | VArr a => match ashape a with [n] => Ok (map (fun i => VFlt (acell a [i])) (zrange n)) | _ => Err TypeErr end
  | VIArr a => match ashape a with [n] => Ok (map (fun i => VInt (acell a [i])) (zrange n)) | _ => Err TypeErr end
  | _ => Err TypeErr
  end.
(** An operand of an elementwise operation: an int, a float, or an array of them. *)
Definition as_ints (v : val) : option (arr Z) :=
  match v with
  | VInt z => Some (mkArr [] (fun _ => z))
  | VIArr a => Some a
  | VList l => match ints l with Ok r => Some (mkArr [zlen r] (vec 0 r)) | Err _ => None end
  | _ => None
  end.
Definition as_floats (v : val) : option (arr T) :=
  match v with
  | VFlt x => Some (mkArr [] (fun _ => x))
  | VArr a => Some a
  | _ => match as_ints v with Some a => Some (mkArr (ashape a) (fun idx => n_ofZ (acell a idx))) | None => None end
  end.
Definition is_arr (v : val) : bool := match v with VArr _ | VIArr _ => true | _ => false end.

(** ** Operators *)
Definition arith_arr (f : Z -> Z -> Z) (g : T -> T -> T) (a b : val) : res val :=
  match as_ints a, as_ints b with
  | Some x, Some y => r <- zipa 0 f x y ;; Ok (VIArr r)
  | _, _ =>
      match as_floats a, as_floats b with
      | Some x, Some y => r <- zipa (n_ofZ 0) g x y ;; Ok (VArr r)
      | _, _ => Err TypeErr
      end
  end.
Definition num (v : val) : res T := match v with VInt z => Ok (n_ofZ z) | VFlt x => Ok x | _ => Err TypeErr end.
Definition arith (f : Z -> Z -> Z) (g : T -> T -> T) (a b : val) : res val :=
  if is_arr a || is_arr b then arith_arr f g a b
  else match a, b with
       | VInt x, VInt y => Ok (VInt (f x y))
       | _, _ => x <- num a ;; y <- num b ;; Ok (VFlt (g x y))
       end.
(** True division; between arrays, dividing by 0 is no error. *)
Definition divide (a b : val) : res val :=
  if is_arr a || is_arr b then
    match as_floats a, as_floats b with
    | Some x, Some y => r <- zipa (n_ofZ 0) n_div x y ;; Ok (VArr r)
    | _, _ => Err TypeErr
    end
  else x <- num a ;; y <- num b ;; q <- divE x y ;; Ok (VFlt q).
Definition binop (o : string) (a b : val) : res val :=
  if String.eqb o "+" then
    match a, b with
    | VList x, VList y => Ok (VList (x ++ y))
    | VTup x, VTup y => Ok (VTup (x ++ y))
    | _, _ => arith Z.add n_add a b
    end
  else if String.eqb o "-" then arith Z.sub n_sub a b
  else if String.eqb o "*" then
    match a, b with
    | VList x, VInt n => Ok (VList (List.concat (repeat x (Z.to_nat n))))
    | _, _ => arith Z.mul n_mul a b
    end
  else if String.eqb o "/" then divide a b
  else if String.eqb o "**" then
    match a, b with VInt x, VInt k => if k <? 0 then Err TypeErr else Ok (VInt (x ^ k)) | _, _ => Err TypeErr end
  else Err TypeErr.

Definition cmp_arr (f : Z -> Z -> bool) (g : T -> T -> bool) (a b : val) : res val :=
  match as_ints a, as_ints b with
  | Some x, Some y => r <- zipa false f x y ;; Ok (VBArr r)
  | _, _ =>
      match as_floats a, as_floats b with
      | Some x, Some y => r <- zipa false g x y ;; Ok (VBArr r)
      | _, _ => Err TypeErr
      end
  end.
Definition order_ (f : Z -> Z -> bool) (g : T -> T -> bool) (a b : val) : res val :=
  if is_arr a || is_arr b then cmp_arr f g a b
  else match a, b with
       | VInt x, VInt y => Ok (VBool (f x y))
       | _, _ => x <- num a ;; y <- num b ;; Ok (VBool (g x y))
       end.
Definition compare (o : string) (a b : val) : res val :=
  if String.eqb o "<" then order_ Z.ltb n_ltb a b
  else if String.eqb o "<=" then order_ Z.leb n_leb a b
  else if String.eqb o "==" then match a, b with VInt x, VInt y => Ok (VBool (x =? y)) | _, _ => Err TypeErr end
  else if String.eqb o "!=" then match a, b with VInt x, VInt y => Ok (VBool (negb (x =? y))) | _, _ => Err TypeErr end
  else if String.eqb o "is" then match b with VNone => Ok (VBool match a with VNone => true | _ => false end) | _ => Err TypeErr end
  else Err TypeErr.
Definition truth (v : val) : res bool := match v with VBool b => Ok b | _ => Err TypeErr end.
(** [-v]; literals are folded by the compiler. *)
Definition negate (v : val) : res val := match v with VInt z => Ok (VInt (- z)) | _ => Err TypeErr end.

(** ** Subscripts of values *)
Definition dict_get (l : list (Z * val)) (k : Z) : res val := dget l k.
Definition clip (n z : Z) : nat := Z.to_nat (Z.max 0 (Z.min n (wrap n z))).
Definition subscript (v : val) (l : list sidx) : res val :=
  match v with
  | VTup r => match l with [SI z] => lget r (wrap (zlen r) z) | _ => Err TypeErr end
  | VList r =>
      match l with
      | [SI z] => lget r (wrap (zlen r) z)
      | [SRange a b] => let i := clip (zlen r) a in Ok (VList (firstn (clip (zlen r) b - i) (skipn i r)))
      | _ => Err TypeErr
      end
  | VDict d => match l with [SI z] => dict_get d z | _ => Err TypeErr end
  | VArr a =>
      match l with
      | [SFancy zs] =>
          match ashape a with
          | [n] => r <- mapM (fun z => aget a [wrap n z]) zs ;; Ok (farr [zlen r] (vec (n_ofZ 0) r))
          | _ => Err TypeErr
          end
      | _ => r <- get_sub (n_ofZ 0) a l ;; match ashape r with [] => Ok (VFlt (acell r [])) | _ => Ok (VArr r) end
      end
  | VIArr a => r <- get_sub 0 a l ;; match ashape r with [] => Ok (VInt (acell r [])) | _ => Ok (VIArr r) end
  | _ => Err TypeErr
  end.
Definition store (v : val) (l : list sidx) (w : val) : res val :=
  match v with
  | VList r =>
      match l with
      | [SI z] => let i := wrap (zlen r) z in
                  if (0 <=? i) && (i <? zlen r) then Ok (VList (lset r (Z.to_nat i) w)) else Err IndexErr
      | [SRange a b] =>
          let i := clip (zlen r) a in let j := Nat.max i (clip (zlen r) b) in
          m <- items w ;; Ok (VList (firstn i r ++ m ++ skipn j r))
      | _ => Err TypeErr
      end
  | VDict d => match l with [SI z] => Ok (VDict ((z, w) :: d)) | _ => Err TypeErr end
  | VArr a =>
      match as_floats w with
      | Some x =>
          match l with
          | [SFancy zs] =>
              match ashape a, ashape x with
              | [n], [] =>
                  if forallb (fun z => (0 <=? wrap n z) && (wrap n z <? n)) zs
                  then Ok (farr [n] (fun idx => if existsb (fun z => wrap n z =? hd 0 idx) zs then acell x [] else acell a idx))
                  else Err IndexErr
              | _, _ => Err TypeErr
              end
          | _ => r <- set_sub (n_ofZ 0) a l x ;; Ok (VArr r)
          end
      | None => Err TypeErr
      end
  | _ => Err TypeErr
  end.

(** ** Library *)
Definition shape_arg (v : val) : res (list Z) := match v with VInt z => Ok [z] | VTup l => ints l | _ => Err TypeErr end.
Definition range_step (a b s : Z) : list Z := map (fun i => a + i * s) (zrange ((b - a + s - 1) / s)).
Fixpoint float_rows (l : list val) : res (list (list T)) :=
  match l with [] => Ok [] | VTup r :: l => x <- floats r ;; q <- float_rows l ;; Ok (x :: q) | _ => Err TypeErr end.
(** [numpy.array] of a list: of ints, of floats, of tuples of floats. *)
Definition make_array (l : list val) : res val :=
  match l with
  | VInt _ :: _ => r <- ints l ;; Ok (iarr [zlen r] (vec 0 r))
  | VTup _ :: _ => r <- float_rows l ;; Ok (VArr (canon (of_rows r)))
  | _ => r <- floats l ;; Ok (farr [zlen r] (vec (n_ofZ 0) r))
  end.
(** The smallest integer not below [x]. *)
Definition ceil (x : T) : Z := - n_floor (n_ofZ 0 -! x).
Definition nzero (a : arr bool) : list Z := match ashape a with [n] => filter (fun i => acell a [i]) (zrange n) | _ => [] end.
Definition bools (a : arr bool) : res (list bool) := match ashape a with [n] => Ok (map (fun i => acell a [i]) (zrange n)) | _ => Err TypeErr end.
Definition concat0 (a b : arr T) : res (arr T) :=
  match ashape a, ashape b with
  | n :: s, m :: s' =>
      if idx_eqb s s' then Ok (tab (n_ofZ 0) (n + m :: s) (fun idx => let i := hd 0 idx in if i <? n then acell a idx else acell b (i - n :: tl idx)))
      else Err ValueErr
  | _, _ => Err ValueErr
  end.
(** [tensordot(a, b, (0, 0))] *)
Definition tensordot00 (a b : arr T) : res (arr T) :=
  match ashape a, ashape b with
  | n :: s, m :: s' =>
      if n =? m then Ok (tab (n_ofZ 0) (s ++ s') (fun idx => asum n (fun j => acell a (j :: firstn (List.length s) idx) *! acell b (j :: skipn (List.length s) idx))))
      else Err ValueErr
  | _, _ => Err ValueErr
  end.
Fixpoint itemss (l : list val) : res (list (list val)) :=
  match l with [] => Ok [] | v :: l => x <- items v ;; r <- itemss l ;; Ok (x :: r) end.
(** [reduce(mul, l)] *)
Fixpoint reduce_ (a : val) (l : list val) : res val :=
  match l with [] => Ok a | b :: l => r <- binop "*" a b ;; reduce_ r l end.

(** [None]: not a library function. *)
Definition library (f : string) (l : list val) : option (res val) :=
  if String.eqb f "range" then
    Some (match l with
          | [VInt n] => Ok (VList (map VInt (zrange n)))
          | [VInt a; VInt b] => Ok (VList (map VInt (zrange2 a b)))
          | [VInt a; VInt b; VInt s] => if s =? -1 then Ok (VList (map VInt (zrange_down a b)))
                                        else if 0 <? s then Ok (VList (map VInt (range_step a b s))) else Err TypeErr
          | _ => Err TypeErr end)
  else if String.eqb f "len" then
    Some (match l with
          | [VTup r] | [VList r] => Ok (VInt (zlen r))
          | [VArr a] => n <- lget (ashape a) 0 ;; Ok (VInt n)
          | [VIArr a] => n <- lget (ashape a) 0 ;; Ok (VInt n)
          | _ => Err TypeErr end)
  else if String.eqb f "list" then Some (match l with [v] => r <- items v ;; Ok (VList r) | _ => Err TypeErr end)
  else if String.eqb f "tuple" then Some (match l with [v] => r <- items v ;; Ok (VTup r) | _ => Err TypeErr end)
  else if String.eqb f "sum" then Some (match l with [v] => r <- items v ;; r <- ints r ;; Ok (VInt (zsum_list r)) | _ => Err TypeErr end)
  else if (String.eqb f "max" || String.eqb f "np.max")%string then
    Some (match l with [v] => r <- items v ;; r <- ints r ;; m <- max_list r ;; Ok (VInt m) | _ => Err TypeErr end)
  else if String.eqb f "int" then Some (match l with [VInt z] => Ok (VInt z) | _ => Err TypeErr end)
  else if String.eqb f "all" then Some (match l with [VBArr a] => r <- bools a ;; Ok (VBool (forallb (fun b => b) r)) | _ => Err TypeErr end)
  else if String.eqb f "any" then Some (match l with [VBArr a] => r <- bools a ;; Ok (VBool (existsb (fun b => b) r)) | _ => Err TypeErr end)
  else if String.eqb f "enumerate" then
    Some (match l with
          | [v] => r <- items v ;; Ok (VList (map (fun p => VTup [VInt (Z.of_nat (fst p)); snd p]) (combine (seq 0 (List.length r)) r)))
          | _ => Err TypeErr end)
  else if String.eqb f "product" then Some (ls <- itemss l ;; Ok (VList (map VTup (iproduct ls))))
  else if String.eqb f "combinations_with_replacement" then
    Some (match l with
          | [v; VInt d] => if d <? 0 then Err ValueErr else r <- items v ;; r <- ints r ;; Ok (VList (map (fun c => VTup (map VInt c)) (cwr (Z.to_nat d) r)))
          | _ => Err TypeErr end)
  else if String.eqb f "chain.from_iterable" then
    Some (match l with [v] => r <- items v ;; ls <- itemss r ;; Ok (VList (List.concat ls)) | _ => Err TypeErr end)
  else if String.eqb f "lu" then
    Some (match l with [VArr a; VBool true] => '(L, U) <- x_lu X a ;; Ok (VTup [VArr (canon L); VArr (canon U)]) | _ => Err TypeErr end)
  else if String.eqb f "la.solve" then
    Some (match l with [VArr a; VArr b] => x <- x_solve X a b ;; Ok (VArr (canon x)) | _ => Err TypeErr end)
  else if String.eqb f "np.asarray" then
    Some (match l with [VList r] => make_array r | [VArr a] => Ok (VArr a) | [VIArr a] => Ok (VIArr a) | _ => Err TypeErr end)
  else if String.eqb f "np.array" then
    Some (match l with [VList r] => make_array r | _ => Err TypeErr end)
  else if (String.eqb f "np.zeros" || String.eqb f "np.empty")%string then   (* the content of an empty array is taken to be 0 *)
    Some (match l with [v] => sh <- shape_arg v ;; Ok (farr sh (fun _ => n_ofZ 0)) | _ => Err TypeErr end)
  else if String.eqb f "np.ones" then
    Some (match l with [v] => sh <- shape_arg v ;; Ok (farr sh (fun _ => n_ofZ 1)) | _ => Err TypeErr end)
  else if String.eqb f "np.arange" then
    Some (match l with
          | [VFlt a; VFlt b] => Ok (farr [Z.max 0 (ceil (b -! a))] (fun idx => a +! n_ofZ (hd 0 idx)))
          | _ => Err TypeErr end)
  else if String.eqb f "np.cos" then Some (match l with [VArr a] => Ok (farr (ashape a) (fun idx => x_cos X (acell a idx))) | _ => Err TypeErr end)
  else if String.eqb f "np.abs" then Some (match l with [VArr a] => Ok (farr (ashape a) (fun idx => nabs (acell a idx))) | _ => Err TypeErr end)
  else if String.eqb f "np.where" then
    Some (match l with [VBArr a] => let r := nzero a in Ok (VTup [iarr [zlen r] (vec 0 r)]) | _ => Err TypeErr end)
  else if String.eqb f "np.concatenate" then
    Some (match l with [VList [VArr a; VArr b]] => r <- concat0 a b ;; Ok (VArr r) | _ => Err TypeErr end)
  else if String.eqb f "np.tensordot" then
    Some (match l with [VArr a; VArr b; VTup [VInt 0; VInt 0]] => r <- tensordot00 a b ;; Ok (VArr r) | _ => Err TypeErr end)
  else None.
(** Keyword arguments of library functions that change nothing here: [order] of empty, [axis=0] of concatenate. *)
Definition ignored (f : string) (ks : list (string * val)) : bool :=
  match ks with
  | [] => true
  | [(k, v)] => (String.eqb f "np.empty" && String.eqb k "order")
                || (String.eqb f "np.concatenate" && String.eqb k "axis" && match v with VInt 0 => true | _ => false end)
  | _ => false
  end.
Fixpoint attr (l : list (string * val)) (s : string) : res val :=
  match l with [] => Err NameErr | (x, v) :: l => if String.eqb s x then Ok v else attr l s end.
Fixpoint set_attr (l : list (string * val)) (s : string) (v : val) : list (string * val) :=
  match l with [] => [(s, v)] | (x, w) :: l => if String.eqb s x then (x, v) :: l else (x, w) :: set_attr l s v end.
Definition transpose (a : arr T) : arr T := canon (atranspose a).
Definition attribute (v : val) (s : string) : res val :=
  match v with
  | VObj _ l => attr l s
  | VArr a =>
      if String.eqb s "shape" then Ok (VTup (map VInt (ashape a)))
      else if String.eqb s "size" then Ok (VInt (fold_right Z.mul 1 (ashape a)))
      else if String.eqb s "T" then Ok (VArr (transpose a)) else Err NameErr
  | VIArr a => if String.eqb s "size" then Ok (VInt (fold_right Z.mul 1 (ashape a))) else Err NameErr
  | _ => Err NameErr
  end.
(** [isinstance(v, t)] *)
Definition instance (v : val) (t : expr) : res bool :=
  match t with
  | EName s =>
      if String.eqb s "int" then Ok match v with VInt _ => true | _ => false end
      else if String.eqb s "float" then Ok match v with VFlt _ => true | _ => false end
      else if String.eqb s "list" then Ok match v with VList _ => true | _ => false end
      else Err TypeErr
  | EAttr (EName m) s =>
      if (String.eqb m "np" && String.eqb s "ndarray")%string then Ok match v with VArr _ | VIArr _ | VBArr _ => true | _ => false end else Err TypeErr
  | _ => Err TypeErr
  end.

(** ** Expressions.  [call]: functions and classes of the module; [invoke]: methods. *)
Variable call : string -> list val -> list (string * val) -> res val.
Variable invoke : val -> string -> list val -> list (string * val) -> res val.

Definition lookup (E : env) (x : string) : res val := match E x with Some v => Ok v | None => Err NameErr end.
Definition literal (m e : Z) : T :=
  if e <=? 0 then n_ofZ (m * 10 ^ (- e))
  else if m mod 10 ^ e =? 0 then n_ofZ (m / 10 ^ e) else n_ofZ m /! n_ofZ (10 ^ e).
(** A function of a library module: its name with the module. *)
Definition module_name (m : string) : bool := (String.eqb m "np" || String.eqb m "la" || String.eqb m "chain")%string.
Definition callee (f : expr) : option string :=
  match f with
  | EName s => Some s
  | EAttr (EName m) s => if module_name m then Some (m ++ "." ++ s)%string else None
  | _ => None
  end.
(** Assignment to a name in a [for]: a name or a tuple of names. *)
Fixpoint bind_names (E : env) (l : list expr) (vs : list val) : res env :=
  match l, vs with
  | [], [] => Ok E
  | EName x :: l, v :: vs => bind_names (upd E x v) l vs
  | _, _ => Err ValueErr
  end.
Definition bind_target (E : env) (t : expr) (v : val) : res env :=
  match t with
  | EName x => Ok (upd E x v)
  | ETup l => vs <- items v ;; bind_names E l vs
  | _ => Err TypeErr
  end.
Definition to_sidx (v : val) : res sidx :=
  match v with
  | VInt z => Ok (SI z)
  | VNone => Ok SNew
  | VList l => r <- ints l ;; Ok (SFancy r)
  | VTup [v] => r <- items v ;; r <- ints r ;; Ok (SFancy r)
  | _ => Err TypeErr
  end.

(** The parts of [eval], for a given evaluation [ev] of expressions: arguments, keyword arguments,
    subscripts, chained comparisons, comprehensions. *)
Definition evals_ (ev : expr -> res val) := fix evals (l : list expr) : res (list val) :=
  match l with
  | [] => Ok []
  | a :: r =>
      match a with
      | EStar a => v <- ev a ;; x <- items v ;; y <- evals r ;; Ok (x ++ y)
      | _ => v <- ev a ;; y <- evals r ;; Ok (v :: y)
      end
  end.
Definition evalk_ (ev : expr -> res val) := fix evalk (l : list (string * expr)) : res (list (string * val)) :=
  match l with
  | [] => Ok []
  | (s, a) :: r => v <- ev a ;; y <- evalk r ;; Ok ((s, v) :: y)
  end.
Definition sub_ (ev : expr -> res val) (a : expr) : res sidx :=
  match a with
  | ESlice None None None => Ok SAll
  | EEllipsis => Ok SDots
  | ESlice (Some x) (Some y) None =>
      v <- ev x ;; w <- ev y ;; match v, w with VInt i, VInt j => Ok (SRange i j) | _, _ => Err TypeErr end
  | _ => v <- ev a ;; to_sidx v
  end.
Definition subs_ (ev : expr -> res val) := fix subs (l : list expr) : res (list sidx) :=
  match l with
  | [] => Ok []
  | a :: r => s <- sub_ ev a ;; q <- subs r ;; Ok (s :: q)
  end.
Definition chain_ (ev : expr -> res val) := fix chain (v : val) (l : list (string * expr)) : res bool :=
  match l with
  | [] => Ok true
  | (o, a) :: r => w <- ev a ;; c <- compare o v w ;; b <- truth c ;; if b : bool then chain w r else Ok false
  end.
Definition pick_ (ev : env -> expr -> res val) (E : env) (a t : expr) (c : option expr) := fix go (l : list val) : res (list val) :=
  match l with
  | [] => Ok []
  | w :: l =>
      E <- bind_target E t w ;;
      keep <- (match c with None => Ok true | Some c => x <- ev E c ;; truth x end) ;;
      if keep : bool then (y <- ev E a ;; r <- go l ;; Ok (y :: r)) else go l
  end.
(** A function of the library or of the module. *)
Definition call_ (s : string) (vs : list val) (ks : list (string * val)) : res val :=
  match library s vs with
  | Some r => if ignored s ks then r else Err TypeErr
  | None => call s vs ks
  end.
(** [v.m(args)] in an expression *)
Definition method_ (v : val) (m : string) (vs : list val) (ks : list (string * val)) : res val :=
  match v with
  | VObj _ _ => invoke v m vs ks
  | VArr a => match vs with
              | [VArr b] => if String.eqb m "dot" then r <- adot a b ;; Ok (VArr (canon r)) else Err TypeErr
              | _ => Err TypeErr end
  | _ => Err TypeErr
  end.

Fixpoint eval (E : env) (e : expr) {struct e} : res val :=
  match e with
  | EName x => lookup E x
  | EInt z => Ok (VInt z)
  | EFlt m x => Ok (VFlt (literal m x))
  | EStr s => Ok (VStr s)
  | ENone => Ok VNone
  | ETrue => Ok (VBool true)
  | EFalse => Ok (VBool false)
  | EBin o a b => x <- eval E a ;; y <- eval E b ;; binop o x y
  | ENeg (EFlt m x) => Ok (VFlt (literal (- m) x))
  | ENeg a => x <- eval E a ;; negate x
  | ENot a => x <- eval E a ;; b <- truth x ;; Ok (VBool (negb b))
  | ECmp a [(o, b)] => x <- eval E a ;; y <- eval E b ;; compare o x y
  | ECmp a l => x <- eval E a ;; b <- chain_ (eval E) x l ;; Ok (VBool b)
  | EAnd a b => x <- eval E a ;; t <- truth x ;; if t : bool then eval E b else Ok x
  | EOr a b => x <- eval E a ;; t <- truth x ;; if t : bool then Ok x else eval E b
  | EIfE c a b => x <- eval E c ;; t <- truth x ;; if t : bool then eval E a else eval E b
  | EAttr a s =>
      match e with
      | EAttr (EName m) s => if module_name m then if (String.eqb m "np" && String.eqb s "pi")%string then Ok (VFlt (x_pi X)) else Err NameErr
                             else x <- eval E a ;; attribute x s
      | _ => x <- eval E a ;; attribute x s
      end
  | ESub a l => x <- eval E a ;; i <- subs_ (eval E) l ;; subscript x i
  | ETup l => vs <- evals_ (eval E) l ;; Ok (VTup vs)
  | EList l => vs <- evals_ (eval E) l ;; Ok (VList vs)
  | EDict [] => Ok (VDict [])
  | EComp a t it c =>
      v <- eval E it ;; l <- items v ;; r <- pick_ eval E a t c l ;; Ok (VList r)
  | ECall f args kws =>
      match f, args with
      | EName s, [a; t] =>
          if String.eqb s "isinstance" then v <- eval E a ;; b <- instance v t ;; Ok (VBool b)
          else if String.eqb s "reduce" then
            match a with
            | EName m => if String.eqb m "mul" then
                           v <- eval E t ;; l <- items v ;; match l with [] => Err TypeErr | x :: l => reduce_ x l end
                         else Err TypeErr
            | _ => Err TypeErr
            end
          else vs <- evals_ (eval E) args ;; ks <- evalk_ (eval E) kws ;; call_ s vs ks
      | _, _ =>
          match callee f with
          | Some s => vs <- evals_ (eval E) args ;; ks <- evalk_ (eval E) kws ;; call_ s vs ks
          | None =>
              match f with
              | EAttr o m => v <- eval E o ;; vs <- evals_ (eval E) args ;; ks <- evalk_ (eval E) kws ;; method_ v m vs ks
              | _ => Err TypeErr
              end
          end
      end
  | _ => Err TypeErr
  end.
Definition evals (E : env) (l : list expr) : res (list val) := evals_ (eval E) l.
Definition subs (E : env) (l : list expr) : res (list sidx) := subs_ (eval E) l.

(** ** Statements *)
Inductive sig := Nxt | Ret (v : val) | Brk | Cnt.
Definition state := (sig * env)%type.
Definition set_target (E : env) (t : expr) (v : val) : res env :=
  match t with
  | EName x => Ok (upd E x v)
  | ESub (EName x) l => i <- subs E l ;; w <- lookup E x ;; w <- store w i v ;; Ok (upd E x w)
  | EAttr (EName x) s => w <- lookup E x ;; match w with VObj c l => Ok (upd E x (VObj c (set_attr l s v))) | _ => Err NameErr end
  | _ => Err TypeErr
  end.
Fixpoint set_targets (E : env) (l : list expr) (vs : list val) : res env :=
  match l, vs with
  | [], [] => Ok E
  | t :: l, v :: vs => E <- set_target E t v ;; set_targets E l vs
  | _, _ => Err ValueErr
  end.
Definition assign (E : env) (t : expr) (v : val) : res env :=
  match t with ETup l => vs <- items v ;; set_targets E l vs | _ => set_target E t v end.
(** A method that changes the list [l]. *)
Definition change (m : string) (l vs : list val) : option (res (list val)) :=
  if String.eqb m "append" then Some (match vs with [v] => Ok (l ++ [v]) | _ => Err TypeErr end)
  else if String.eqb m "extend" then Some (match vs with [v] => r <- items v ;; Ok (l ++ r) | _ => Err TypeErr end)
  else if String.eqb m "reverse" then Some (match vs with [] => Ok (rev l) | _ => Err TypeErr end)
  else if String.eqb m "sort" then Some (match vs with [] => r <- ints l ;; Ok (map VInt (sort r)) | _ => Err TypeErr end)
  else None.
(** The name under which a generator collects what it yields. *)
Definition yielded : string := "*yield*".
Definition raised (e : option expr) : err :=
  match e with
  | Some (ECall (EName s) _ _) => if String.eqb s "ValueError" then ValueErr else NotImplErr
  | _ => NotImplErr
  end.
Fixpoint iterate (body : val -> env -> res state) (l : list val) (E : env) : res state :=
  match l with
  | [] => Ok (Nxt, E)
  | v :: l =>
      '(s, E) <- body v E ;;
      match s with Nxt | Cnt => iterate body l E | Brk => Ok (Nxt, E) | Ret _ => Ok (s, E) end
  end.
Fixpoint repeat_while (n : nat) (test : env -> res bool) (body : env -> res state) (E : env) : res state :=
  match n with
  | O => Err FuelErr
  | S n =>
      b <- test E ;;
      if b : bool then
        '(s, E) <- body E ;;
        match s with Nxt | Cnt => repeat_while n test body E | Brk => Ok (Nxt, E) | Ret _ => Ok (s, E) end
      else Ok (Nxt, E)
  end.
(** [x.m(args)] with a list [x], as a statement. *)
Definition mutation (e : expr) : option (string * string * list expr) :=
  match e with
  | ECall (EAttr (EName x) m) args [] => if existsb (String.eqb m) ["append"; "extend"; "reverse"; "sort"]%string then Some (x, m, args) else None
  | _ => None
  end.
Variable fuel : nat.
Fixpoint exec (s : stmt) (E : env) {struct s} : res state :=
  let block := fix block (l : list stmt) (E : env) : res state :=
    match l with
    | [] => Ok (Nxt, E)
    | s :: l => '(g, E) <- exec s E ;; match g with Nxt => block l E | _ => Ok (g, E) end
    end in
  match s with
  | SAssign [t] e => v <- eval E e ;; E <- assign E t v ;; Ok (Nxt, E)
  | SAug o t e => x <- eval E t ;; y <- eval E e ;; v <- binop o x y ;; E <- assign E t v ;; Ok (Nxt, E)
  | SExpr (EYield e) =>
      v <- eval E e ;;
      match E yielded with Some (VList l) => Ok (Nxt, upd E yielded (VList (l ++ [v]))) | _ => Err TypeErr end
  | SExpr e =>
      match mutation e with
      | Some (x, m, args) =>
          w <- lookup E x ;; vs <- evals E args ;;
          match w with
          | VList l => match change m l vs with Some r => l <- r ;; Ok (Nxt, upd E x (VList l)) | None => Err TypeErr end
          | _ => Err TypeErr
          end
      | None => _ <- eval E e ;; Ok (Nxt, E)
      end
  | SIf c b1 b2 => x <- eval E c ;; t <- truth x ;; if t : bool then block b1 E else block b2 E
  | SFor t it b =>
      x <- eval E it ;; l <- items x ;;
      iterate (fun v E => E <- bind_target E t v ;; block b E) l E
  | SWhile c b => repeat_while fuel (fun E => x <- eval E c ;; truth x) (block b) E
  | SRet None => Ok (Ret VNone, E)
  | SRet (Some e) => v <- eval E e ;; Ok (Ret v, E)
  | SPass | SImport => Ok (Nxt, E)
  | SBreak => Ok (Brk, E)
  | SContinue => Ok (Cnt, E)
  | SRaise e => Err (raised e)
  | _ => Err TypeErr
  end.
Definition block := fix block (l : list stmt) (E : env) : res state :=
  match l with
  | [] => Ok (Nxt, E)
  | s :: l => '(g, E) <- exec s E ;; match g with Nxt => block l E | _ => Ok (g, E) end
  end.

Fixpoint has_yield (s : stmt) : bool :=
  let any := fix any (l : list stmt) : bool := match l with [] => false | s :: l => has_yield s || any l end in
  match s with
  | SExpr (EYield _) => true
  | SIf _ a b => any a || any b
  | SFor _ _ b | SWhile _ b => any b
  | _ => false
  end.
(** A call: bind the parameters (arguments, keyword arguments, constant defaults), run the body.  The
    value and, for the sake of methods, the variables at the end. *)
Fixpoint bind_params (ps : list (string * option expr)) (vs : list val) (ks : list (string * val)) : res env :=
  match ps with
  | [] => match vs with [] => Ok empty | _ => Err TypeErr end
  | (x, d) :: ps =>
      match vs with
      | v :: vs => E <- bind_params ps vs ks ;; Ok (upd E x v)
      | [] =>
          v <- (match find (fun p => String.eqb (fst p) x) ks with
                | Some (_, v) => Ok v
                | None => match d with Some e => eval empty e | None => Err TypeErr end
                end) ;;
          E <- bind_params ps [] ks ;; Ok (upd E x v)
      end
  end.
Definition call_body (ps : list (string * option expr)) (body : list stmt) (vs : list val) (ks : list (string * val)) : res (val * env) :=
  E <- bind_params ps vs ks ;;
  if existsb has_yield body then
    '(s, E) <- block body (upd E yielded (VList [])) ;;
    match E yielded with Some v => Ok (v, E) | None => Err TypeErr end
  else
    '(s, E) <- block body E ;;
    match s with Ret v => Ok (v, E) | Nxt => Ok (VNone, E) | _ => Err TypeErr end.
End Sem.
Arguments val : clear implicits.
Arguments env : clear implicits.
Arguments sig : clear implicits.
Arguments state : clear implicits.
Arguments externals : clear implicits.

(** ** Modules *)
Section Module.
Context {T : Type} {NT : Num T}.
Variable X : externals T.
Variable P : list stmt.
Fixpoint find_def (p : list stmt) (f : string) : option (list (string * option expr) * list stmt) :=
  match p with
  | [] => None
  | SDef g ps b :: r => match find_def r f with Some d => Some d | None => if String.eqb f g then Some (ps, b) else None end
  | _ :: r => find_def r f
  end.
Fixpoint find_class (p : list stmt) (c : string) : option (list stmt) :=
  match p with
  | [] => None
  | SClass g b :: r => match find_class r c with Some d => Some d | None => if String.eqb c g then Some b else None end
  | _ :: r => find_class r c
  end.
Definition method_def (v : val T) (m : string) : option (list (string * option expr) * list stmt) :=
  match v with VObj c _ => match find_class P c with Some b => find_def b m | None => None end | _ => None end.

(** Calling [f] of the module; a class is called to build an object.  [n] bounds the depth of nested
    calls and the number of rounds of [while] loops. *)
Fixpoint run (n : nat) (f : string) (vs : list (val T)) (ks : list (string * val T)) : res (val T) :=
  match n with
  | O => Err FuelErr
  | S n =>
      let invoke v m vs ks :=
        match method_def v m with
        | Some (ps, b) => '(r, _) <- call_body X (run n) (fun _ _ _ _ => Err TypeErr) n ps b (v :: vs) ks ;; Ok r
        | None => Err NameErr
        end in
      match find_class P f with
      | Some b =>
          match find_def b "__init__" with
          | Some (ps, b) =>
              '(_, E) <- call_body X (run n) invoke n ps b (VObj f [] :: vs) ks ;;
              match E "self"%string with Some v => Ok v | None => Err TypeErr end
          | None => Err TypeErr
          end
      | None =>
          match find_def P f with
          | Some (ps, b) => '(r, _) <- call_body X (run n) invoke n ps b vs ks ;; Ok r
          | None => Err NameErr
          end
      end
  end.
(** Calling the method [m] of the object [v]: its value, and the object afterwards.  A method that is
    called by a method calls no method itself. *)
Definition run_method (n : nat) (v : val T) (m : string) (vs : list (val T)) (ks : list (string * val T)) : res (val T * val T) :=
  let invoke v m vs ks :=
    match method_def v m with
    | Some (ps, b) => '(r, _) <- call_body X (run n) (fun _ _ _ _ => Err TypeErr) n ps b (v :: vs) ks ;; Ok r
    | None => Err NameErr
    end in
  match method_def v m with
  | Some (ps, b) =>
      '(r, E) <- call_body X (run n) invoke n ps b (v :: vs) ks ;;
      match E "self"%string with Some v => Ok (r, v) | None => Err TypeErr end
  | None => Err NameErr
  end.
End Module.
