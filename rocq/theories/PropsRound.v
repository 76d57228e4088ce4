(** C72: the rounding errors of spline evaluation. *)
From Coq Require Import ZArith List Bool Reals PrimFloat.
From Flocq Require Import Core.
From Verif Require Import Base SplineModel Spec SpecRound RoundV RoundCases.
Import ListNotations.
Open Scope R_scope.

(** In an arithmetic with relative errors of at most [u], the evaluators compute the exact value of the spline
    up to a multiple of the largest coefficient that does not depend on the point: for every point of the domain,
    and with the modes "constant" and "nearest" for every point. *)
Theorem C72_rounding_error (N : Num R) u k xm grid comps C pt suf M v :
  rounded N u -> u <= / 200 -> valid_grid grid -> kgrid_ok k grid -> coefs_ok k grid comps C -> List.Forall (resolved u) grid ->
  zlen pt = zlen grid -> (xm = XLinear -> in_domain grid pt) -> inb comps suf = true ->
  (forall idx, inb (map (csize k) grid) idx = true -> Rabs (acell C (idx ++ suf)) <= M) ->
  @value_at R NumR k None xm grid comps C pt suf v ->
  exists v', @value_at R N k None xm grid comps C pt suf v' /\ Rabs (v' - v) <= grid_error k u grid * M.
Proof. intros HN Hu. exact (rounded_value N u HN Hu k xm grid comps C pt suf M v). Qed.
Print Assumptions C72_rounding_error.
(** Binary floating point of precision [p] is such an arithmetic, with [u] = 2^-p. *)
Theorem C72_binary_arithmetic p : (1 < p)%Z -> rounded (binary p) (bpow radix2 (- p)).
Proof. exact (binary_rounded p). Qed.
Print Assumptions C72_binary_arithmetic.
(** So for linear interpolation on [n] uniform nodes in precision [p], at the point [x]: 14 n 2^-p. *)
Theorem C72_linear_one_dim p xm a b n C x M v :
  (8 <= p)%Z -> (2 <= n)%Z -> a < b -> IZR n * bpow radix2 (- p) <= / 200 -> ashape C = [n] -> a <= x <= b ->
  (forall i, (0 <= i < n)%Z -> Rabs (acell C [i]) <= M) ->
  @value_at R NumR 1 None xm [Unif a b n] [] C [x] [] v ->
  exists v', @value_at R (binary p) 1 None xm [Unif a b n] [] C [x] [] v' /\ Rabs (v' - v) <= 14 * IZR n * bpow radix2 (- p) * M.
Proof. exact (linear_one_dim p xm a b n C x M v). Qed.
Print Assumptions C72_linear_one_dim.
(** The computed value need not be between the least and the greatest coefficient, nor exact at a node: at the
    last of 30 nodes of [0, 7], with coefficients 0, ..., 0, 1, binary64 arithmetic gives more than 1. *)
Theorem C72_range_refuted : exists v,
  eval_linear [Unif 0%float 7%float 30] rlast (P1 [7%float]) None None = Ok (VNum v, None) /\ PrimFloat.ltb 1 v = true.
Proof. exact case_last_float. Qed.
Print Assumptions C72_range_refuted.
Example C72_case : valid_grid rgrid /\ kgrid_ok 1 rgrid /\ coefs_ok 1 rgrid [] rC /\ in_domain rgrid rpt /\
  List.Forall (resolved (bpow radix2 (- 53))) rgrid /\
  (forall idx, inb (map (csize 1) rgrid) idx = true -> Rabs (acell rC (idx ++ [])) <= 3) /\
  grid_error 1 (bpow radix2 (- 53)) rgrid <= 69 * bpow radix2 (- 53).
Proof. exact case_rhyps. Qed.
Example C72_case_precision : rounded (binary 53) (bpow radix2 (- 53)) /\ bpow radix2 (- 53) <= / 200.
Proof. exact (conj (binary_rounded 53 eq_refl) (bpow_small 53 (fun H => match H with eq_refl => I end))). Qed.
