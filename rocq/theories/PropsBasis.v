(** Properties of basis_splines.py: C50. *)
From Coq Require Import ZArith List Reals QArith.
From Coquelicot Require Import Coquelicot.
From Verif Require Import Base SplineModel Spec BasisModel SpecBasis BasisFinal.
Import ListNotations.
Open Scope R_scope.

(** C50 *)
Theorem C50_is_bspline p u i x : increasing u -> (0 <= i)%Z -> (i + Z.of_nat p + 1 < zlen u)%Z ->
  B p u i x = Ok (bspline (knot u) p i x).
Proof. exact (B_is_bspline p u i x). Qed.
Print Assumptions C50_is_bspline.

Theorem C50_support_sign p u i x : increasing u -> (0 <= i)%Z -> (i + Z.of_nat p + 1 < zlen u)%Z ->
  exists v, B p u i x = Ok v /\ 0 <= v /\
    (knot u i < x < knot u (i + Z.of_nat p + 1) -> 0 < v) /\
    (x < knot u i \/ knot u (i + Z.of_nat p + 1) <= x -> v = 0).
Proof. exact (B_support_sign p u i x). Qed.
Print Assumptions C50_support_sign.

Theorem C50_partition_of_unity p u x : increasing u -> (2 * Z.of_nat p + 1 < zlen u)%Z ->
  knot u (Z.of_nat p) <= x < knot u (zlen u - 1 - Z.of_nat p) ->
  exists vs, mapM (fun i => B p u i x) (zrange (zlen u - Z.of_nat p - 1)) = Ok vs /\ fold_right Rplus 0 vs = 1.
Proof. exact (B_partition p u x). Qed.
Print Assumptions C50_partition_of_unity.

(** Marsden's identity: the functions reproduce (x - t)^p, hence every polynomial of degree p. *)
Theorem C50_marsden p u x t : increasing u -> (2 * Z.of_nat p + 1 < zlen u)%Z ->
  knot u (Z.of_nat p) <= x < knot u (zlen u - 1 - Z.of_nat p) ->
  exists vs, mapM (fun i => B p u i x) (zrange (zlen u - Z.of_nat p - 1)) = Ok vs /\
    fold_right Rplus 0 (map2 Rmult (map (fun i => dual (knot u) i t p) (zrange (zlen u - Z.of_nat p - 1))) vs) = (x - t) ^ p.
Proof. exact (B_marsden p u x t). Qed.
Print Assumptions C50_marsden.

Theorem C50_derivative p u i x (f : R -> R) b0 b1 : increasing u -> (0 <= i)%Z -> (i + Z.of_nat p + 2 < zlen u)%Z ->
  (1 <= p)%nat \/ ~ In x u ->
  (forall y, B (S p) u i y = Ok (f y)) -> B p u i x = Ok b0 -> B p u (i + 1) x = Ok b1 ->
  is_derive f x (INR (S p) * (b0 / (knot u (i + Z.of_nat p + 1) - knot u i)
                              - b1 / (knot u (i + Z.of_nat p + 2) - knot u (i + 1)))).
Proof. exact (B_derivative p u i x f b0 b1). Qed.
Print Assumptions C50_derivative.

(** eval_cubic computes the tensor product of the cubic B-splines on uniform knots. *)
Theorem C50_eval_cubic xm grid comps C pt suf :
  valid_grid (unif_grid grid) -> coefs_ok 3 (unif_grid grid) comps C -> inb comps suf = true ->
  in_domain (unif_grid grid) pt ->
  value_at 3 None xm (unif_grid grid) comps C pt suf (tensor_spline grid pt (fun idx => acell C (idx ++ suf))).
Proof. exact (eval_cubic_is_spline xm grid comps C pt suf). Qed.
Print Assumptions C50_eval_cubic.

(** Knots must be distinct: a repeated knot makes the recursion divide by zero. *)
Theorem C50_repeated_knot_raises p u i x : (0 <= i)%Z -> (i + Z.of_nat (S p) + 1 < zlen u)%Z ->
  knot u i = knot u (i + 1) -> B (S p) u i x = Err ZeroDivErr.
Proof. exact (B_repeated p u i x). Qed.
Print Assumptions C50_repeated_knot_raises.

Example C50_case : increasing [0; 1; 3; 4; 7; 9] /\
  mapM (fun i => B 2 u_case i (7 # 2)%Q) [0; 1; 2]%Z = Ok [(1 # 12)%Q; (41 # 48)%Q; (1 # 16)%Q].
Proof. exact (conj increasing_case B_values_case). Qed.
Example C50_cubic_case : valid_grid (unif_grid [(0, 1, 3%Z); (0, 2, 2%Z)]) /\
  coefs_ok 3 (unif_grid [(0, 1, 3%Z); (0, 2, 2%Z)]) [] (mkArr [5; 4]%Z (fun idx => IZR (nth 0 idx 0%Z))) /\
  in_domain (unif_grid [(0, 1, 3%Z); (0, 2, 2%Z)]) [/ 3; 2].
Proof. exact cubic_case. Qed.
Example C50_repeated_case : knot [0; 0; 1; 2] 0 = knot [0; 0; 1; 2] (0 + 1) /\ B 2 [0; 0; 1; 2] 0 (/ 2) = Err ZeroDivErr.
Proof. exact repeated_case. Qed.
