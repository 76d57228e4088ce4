(** Specification of B-splines, independent of the model of basis_splines.py. *)
From Coq Require Import ZArith List Bool Reals.
From Verif Require Import Base SplineModel RSum.
Import ListNotations.
Open Scope R_scope.

(** The knots of a list and strictly increasing knots. *)
Definition knot (u : list R) (i : Z) : R := nth (Z.to_nat i) u 0.
Definition increasing (u : list R) : Prop :=
  forall i, (0 <= i)%Z -> (i + 1 < zlen u)%Z -> knot u i < knot u (i + 1).

(** Truncated power (y)_+^p. *)
Definition tpow (p : nat) (y : R) : R := if Rlt_dec 0 y then y ^ p else 0.

(** Product over k < n, k <> m, of U(i+m) - U(i+k). *)
Fixpoint denom (U : Z -> R) (i m : Z) (n : nat) : R :=
  match n with
  | O => 1
  | S n' => denom U i m n' * (if (m =? Z.of_nat n')%Z then 1 else U (i + m)%Z - U (i + Z.of_nat n')%Z)
  end.

(** The B-spline of degree p with knots U(i), .., U(i+p+1): (U(i+p+1) - U(i)) times the divided
    difference of (t - x)_+^p in t over these knots. *)
Definition bspline (U : Z -> R) (p : nat) (i : Z) (x : R) : R :=
  (U (i + Z.of_nat p + 1)%Z - U i) *
  zsum (Z.of_nat p + 2) (fun m => tpow p (U (i + m)%Z - x) / denom U i m (p + 2)).

(** Product over j = 1 .. p of U(i+j) - t (the coefficients of Marsden's identity). *)
Fixpoint dual (U : Z -> R) (i : Z) (t : R) (p : nat) : R :=
  match p with O => 1 | S p' => dual U i t p' * (U (i + Z.of_nat p)%Z - t) end.

(** Extended uniform knots of a uniform dimension: three more on the left, three on the right. *)
Definition cubic_knots (a b : R) (n : Z) : list R :=
  map (fun i => a + IZR (i - 3) * ((b - a) / (IZR n - 1))) (zrange (n + 6)).

(** The tensor product spline with coefficients c on uniform dimensions (a, b, n):
    sum over 0 <= i_k < n_k + 2 of the product of the cubic B-splines times c [i_1; ..; i_d]. *)
Fixpoint tensor_spline (grid : list (R * R * Z)) (pt : list R) (c : list Z -> R) : R :=
  match grid, pt with
  | (a, b, n) :: grid', x :: pt' =>
      zsum (n + 2) (fun i => bspline (knot (cubic_knots a b n)) 3 i x *
                             tensor_spline grid' pt' (fun idx => c (i :: idx)))
  | _, _ => c []
  end.

(** The grid ((a1,b1,n1), .., (ad,bd,nd)). *)
Fixpoint unif_grid (g : list (R * R * Z)) : list (gdim R) :=
  match g with (a, b, n) :: r => Unif a b n :: unif_grid r | [] => [] end.
