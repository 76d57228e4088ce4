(** Base layer shared by all model files: arithmetic interface, error values, arrays.
    Contains definitions only; lemmas about them are in BaseFacts.v. *)
From Coq Require Import ZArith List Bool Reals QArith Qround.
From Flocq Require Import Core.Raux.
From Coq Require PrimFloat Uint63 FloatOps SpecFloat.
Import ListNotations.
Open Scope Z_scope.

(** ** Arithmetic
    The Python code computes with float64 and int64 values.  Every numeric definition of
    the model is written over this interface and instantiated below.
    - [n_ofZ]   a Python int (or an integral literal such as [1.0]) used as a float
    - [n_floor] [int(floor(x))], [n_floordiv] [int(x // y)]
    - [n_is0]   the test [x == 0.0], used to model ZeroDivisionError
    - [n_finite] [np.isfinite]
    No law is assumed: theorems stated for every [Num T] hold of IEEE floats as well. *)
Class Num (T : Type) := {
  n_ofZ : Z -> T;
  n_add : T -> T -> T;
  n_sub : T -> T -> T;
  n_mul : T -> T -> T;
  n_div : T -> T -> T;
  n_ltb : T -> T -> bool;
  n_leb : T -> T -> bool;
  n_is0 : T -> bool;
  n_floor : T -> Z;
  n_floordiv : T -> T -> Z;
  n_finite : T -> bool }.

Declare Scope num_scope.
Delimit Scope num_scope with N_.
Infix "+!" := n_add (at level 50, left associativity) : num_scope.
Infix "-!" := n_sub (at level 50, left associativity) : num_scope.
Infix "*!" := n_mul (at level 40, left associativity) : num_scope.
Infix "/!" := n_div (at level 40, left associativity) : num_scope.
Infix "<?!" := n_ltb (at level 70) : num_scope.
Infix "<=?!" := n_leb (at level 70) : num_scope.
Open Scope num_scope.

(** Exact real arithmetic (theorems about numbers are proved here). *)
Definition Reqb0 (x : R) : bool := Req_bool x 0.
#[global] Instance NumR : Num R := {|
  n_ofZ := IZR; n_add := Rplus; n_sub := Rminus; n_mul := Rmult; n_div := Rdiv;
  n_ltb := Rlt_bool; n_leb := Rle_bool; n_is0 := Reqb0;
  n_floor := Zfloor; n_floordiv := fun x y => Zfloor (x / y)%R;
  n_finite := fun _ => true |}.

(** Exact rational arithmetic (computable; used for concrete examples). *)
#[global] Instance NumQ : Num Q := {|
  n_ofZ := inject_Z;
  n_add := fun x y => Qred (Qplus x y); n_sub := fun x y => Qred (Qminus x y);
  n_mul := fun x y => Qred (Qmult x y); n_div := fun x y => Qred (Qdiv x y);
  n_ltb := fun x y => negb (Qle_bool y x); n_leb := Qle_bool;
  n_is0 := fun x => Qeq_bool x 0;
  n_floor := Qfloor; n_floordiv := fun x y => Qfloor (Qdiv x y);
  n_finite := fun _ => true |}.

(** IEEE double arithmetic (Coq's primitive floats).  [f_floor] is exact for finite
    arguments; NaN and infinities give 0 (numba leaves that case undefined). *)
Definition f_floor (x : PrimFloat.float) : Z :=
  match FloatOps.Prim2SF x with
  | SpecFloat.S754_finite s m e =>
      let v := if s then Zneg m else Zpos m in
      if 0 <=? e then v * 2 ^ e else v / 2 ^ (- e)
  | _ => 0
  end.
Definition f_ofZ (z : Z) : PrimFloat.float :=
  match z with
  | 0 => PrimFloat.zero
  | Zpos _ => PrimFloat.of_uint63 (Uint63.of_Z z)
  | Zneg p => PrimFloat.opp (PrimFloat.of_uint63 (Uint63.of_Z (Zpos p)))
  end.
#[global] Instance NumF : Num PrimFloat.float := {|
  n_ofZ := f_ofZ;
  n_add := PrimFloat.add; n_sub := PrimFloat.sub; n_mul := PrimFloat.mul; n_div := PrimFloat.div;
  n_ltb := PrimFloat.ltb; n_leb := PrimFloat.leb;
  n_is0 := fun x => PrimFloat.eqb x PrimFloat.zero;
  n_floor := f_floor; n_floordiv := fun x y => f_floor (PrimFloat.div x y);
  n_finite := PrimFloat.is_finite |}.

(** ** Errors as values *)
Inductive err :=
| IndexErr      (* subscript outside of an array (numba: silent out-of-range access) *)
| TypeErr       (* numba typing failure *)
| NameErr       (* undefined name in the source or in generated code *)
| ValueErr      (* explicit raise / ValueError *)
| AssertErr     (* failed assert *)
| ZeroDivErr    (* ZeroDivisionError *)
| NotImplErr    (* raise Exception("Not implemented") *)
| FuelErr.      (* model artefact: recursion budget exhausted (proved unreachable) *)

Inductive res (A : Type) := Ok (a : A) | Err (e : err).
Arguments Ok {A} a.
Arguments Err {A} e.

Definition bind {A B} (r : res A) (f : A -> res B) : res B :=
  match r with Ok a => f a | Err e => Err e end.
Notation "x <- r ;; k" := (bind r (fun x => k))
  (at level 61, r at next level, right associativity).
Notation "' p <- r ;; k" := (bind r (fun p => k))
  (at level 61, p pattern, r at next level, right associativity).

Fixpoint mapM {A B} (f : A -> res B) (l : list A) : res (list B) :=
  match l with
  | [] => Ok []
  | a :: l' => b <- f a ;; bs <- mapM f l' ;; Ok (b :: bs)
  end.

(** Two lists walked together; lists of different lengths are a typing error. *)
Fixpoint mapM2 {A B C} (f : A -> B -> res C) (l : list A) (m : list B) : res (list C) :=
  match l, m with
  | [], [] => Ok []
  | a :: l', b :: m' => c <- f a b ;; cs <- mapM2 f l' m' ;; Ok (c :: cs)
  | _, _ => Err TypeErr
  end.

(** [for x in l: s = f(s, x)] *)
Fixpoint foldM {S A} (f : S -> A -> res S) (l : list A) (s : S) : res S :=
  match l with
  | [] => Ok s
  | a :: l' => s' <- f s a ;; foldM f l' s'
  end.

(** [range(n)], [range(lo, hi)], [range(hi, lo, -1)] *)
Definition zrange (n : Z) : list Z := map Z.of_nat (seq 0 (Z.to_nat n)).
Definition zrange2 (lo hi : Z) : list Z := map (fun i => lo + i) (zrange (hi - lo)).
Definition zrange_down (hi lo : Z) : list Z := map (fun i => hi - i) (zrange (hi - lo)).

Fixpoint map2 {A B C} (f : A -> B -> C) (l : list A) (m : list B) : list C :=
  match l, m with
  | a :: l', b :: m' => f a b :: map2 f l' m'
  | _, _ => []
  end.

Definition zlen {A} (l : list A) : Z := Z.of_nat (length l).
#[global] Arguments zlen {A} l : simpl never.
#[global] Arguments zrange n : simpl never.
#[global] Arguments zrange2 lo hi : simpl never.
#[global] Arguments zrange_down hi lo : simpl never.

(** Bounds-checked read of a 1-d sequence. *)
Definition lget {A} (l : list A) (i : Z) : res A :=
  if i <? 0 then Err IndexErr
  else match nth_error l (Z.to_nat i) with Some x => Ok x | None => Err IndexErr end.

(** Checked division: [x / y] raises ZeroDivisionError when [y == 0]. *)
Definition divE {T} `{Num T} (x y : T) : res T :=
  if n_is0 y then Err ZeroDivErr else Ok (x /! y).

(** Python [min]/[max] on floats. *)
Definition pymin {T} `{Num T} (x y : T) : T := if y <?! x then y else x.
Definition pymax {T} `{Num T} (x y : T) : T := if x <?! y then y else x.

(** ** Arrays: shape and cells; every access is checked against the shape. *)
Record arr (T : Type) := mkArr { ashape : list Z; acell : list Z -> T }.
Arguments mkArr {T} _ _.
Arguments ashape {T} _.
Arguments acell {T} _ _.

Fixpoint inb (sh idx : list Z) : bool :=
  match sh, idx with
  | [], [] => true
  | n :: sh', i :: idx' => (0 <=? i) && (i <? n) && inb sh' idx'
  | _, _ => false
  end.

Fixpoint idx_eqb (a b : list Z) : bool :=
  match a, b with
  | [], [] => true
  | x :: a', y :: b' => (x =? y) && idx_eqb a' b'
  | _, _ => false
  end.

Definition andim {T} (a : arr T) : Z := zlen (ashape a).

Definition aget {T} (a : arr T) (idx : list Z) : res T :=
  if inb (ashape a) idx then Ok (acell a idx)
  else if zlen idx =? zlen (ashape a) then Err IndexErr else Err TypeErr.

Definition aset {T} (a : arr T) (idx : list Z) (v : T) : res (arr T) :=
  if inb (ashape a) idx
  then Ok (mkArr (ashape a) (fun j => if idx_eqb j idx then v else acell a j))
  else if zlen idx =? zlen (ashape a) then Err IndexErr else Err TypeErr.

(** [zeros(shape)] *)
Definition azeros {T} `{Num T} (sh : list Z) : arr T := mkArr sh (fun _ => n_ofZ 0).
(** [a[:] = 0.0] *)
Definition afill0 {T} `{Num T} (a : arr T) : arr T := mkArr (ashape a) (fun _ => n_ofZ 0).
(** [a[nn,:] = 0.0] / [a[nn] = 0.0] *)
Definition afill_row0 {T} `{Num T} (a : arr T) (nn : Z) : res (arr T) :=
  match ashape a with
  | n :: _ =>
      if (0 <=? nn) && (nn <? n)
      then Ok (mkArr (ashape a)
                 (fun j => match j with
                           | j0 :: _ => if j0 =? nn then n_ofZ 0 else acell a j
                           | [] => acell a j
                           end))
      else Err IndexErr
  | [] => Err TypeErr
  end.

(** [a.shape[i]] *)
Definition adim {T} (a : arr T) (i : Z) : res Z := lget (ashape a) i.

(** Same shape and same content (what the user can observe of an array). *)
Definition aeq {T} (a b : arr T) : Prop :=
  ashape a = ashape b /\ forall idx, inb (ashape a) idx = true -> acell a idx = acell b idx.
