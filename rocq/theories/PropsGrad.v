(** C49: the gradient functions of eval_cubic_numba.py and vec_eval_cubic_splines_G. *)
From Coq Require Import ZArith List Reals.
From Verif Require Import Base SplineModel Spec SpecBasis SpecGrad GradModel GradProps GradCases.
Import ListNotations.
Open Scope Z_scope.

(** C49.  Full claim: the values and every partial derivative, at every point.  Proved: the values
    at every point; the partial derivative in coordinate [m] at every point whose coordinate [m]
    lies in the domain (the others may lie anywhere).  The rest is false, see below. *)
Theorem C49_gradient_partial junk g ns C points N p values dvalues :
  valid_grid (unif_grid g) -> (1 <= length g <= 4)%nat ->
  coefs_ok 3 (unif_grid g) [ns] C -> ashape points = [N; p] -> 0 <= N -> zlen g <= p ->
  opt_shape [N; ns] values -> opt_shape [N; zlen g; ns] dvalues ->
  exists V D, vec_eval_cubic_splines_G junk (lower g) (upper g) (counts g) C points values dvalues = Ok (V, D) /\
    ashape V = [N; ns] /\ ashape D = [N; zlen g; ns] /\
    forall n k F, 0 <= n < N -> 0 <= k < ns -> is_interpolant g ns C k F ->
      acell V [n; k] = F (row_of (zlen g) points n) /\
      forall m, (m < length g)%nat ->
        in_dim (nth m (unif_grid g) (Unif 0 0 0)%R) (nth m (row_of (zlen g) points n) 0%R) ->
        partial_at F (row_of (zlen g) points n) m (acell D [n; Z.of_nat m; k]).
Proof. exact (gradient_inside junk g ns C points N p values dvalues). Qed.
Print Assumptions C49_gradient_partial.
Example C49_case : valid_grid (unif_grid g2) /\ (1 <= length g2 <= 4)%nat /\ coefs_ok 3 (unif_grid g2) [2] C2 /\
  ashape P2_ = [2; 2] /\ (exists F, is_interpolant g2 2 C2 1 F) /\
  in_dim (nth 0 (unif_grid g2) (Unif 0 0 0)%R) (nth 0 (row_of 2 P2_ 0) 0%R) /\
  ~ in_dim (nth 1 (unif_grid g2) (Unif 0 0 0)%R) (nth 1 (row_of 2 P2_ 0) 0%R).
Proof. exact case_gradient. Qed.

(** Outside of the domain the derivative returned is that of the cubic piece, not of the linear
    extrapolation which the values follow. *)
Theorem C49_gradient_outside_refuted : exists g C points F V D,
  valid_grid (unif_grid g) /\ length g = 1%nat /\ coefs_ok 3 (unif_grid g) [1] C /\ ashape points = [1; 1] /\
  is_interpolant g 1 C 0 F /\
  (forall junk, vec_eval_cubic_splines_G junk (lower g) (upper g) (counts g) C points None None = Ok (V junk, D junk) /\
    ~ partial_at F (row_of 1 points 0) 0 (acell (D junk) [0; 0; 0])).
Proof. exact gradient_outside_wrong. Qed.
Print Assumptions C49_gradient_outside_refuted.

(** With five or more dimensions, which the rest of eval_cubic.py accepts, the arrays returned
    are the uninitialised ones: whatever the interpolant, some content of the memory makes the
    value wrong. *)
Theorem C49_five_dims_refuted g C points N p ns F :
  (5 <= length g)%nat -> coefs_ok 3 (unif_grid g) [ns] C -> ashape points = [N; p] -> 1 <= N -> 1 <= ns ->
  is_interpolant g ns C 0 F ->
  exists junk V D, vec_eval_cubic_splines_G junk (lower g) (upper g) (counts g) C points None None = Ok (V, D) /\
    acell V [0; 0] <> F (row_of (zlen g) points 0).
Proof. exact (five_dims_junk g C points N p ns F). Qed.
Print Assumptions C49_five_dims_refuted.
Example C49_five_case : (5 <= length g5)%nat /\ coefs_ok 3 (unif_grid g5) [1] C5 /\ exists F, is_interpolant g5 1 C5 0 F.
Proof. exact case_five. Qed.
