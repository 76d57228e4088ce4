(** C57, C58, C59: the functions of eval_cubic_numba.py as they are written in the file.  [run_text]
    parses the embedded text (SrcEvalCubicNumba.v) and interprets it (PySyntax.v, PySem.v). *)
From Coq Require Import ZArith List Bool String Reals QArith.
From Coq Require Floats.
From Verif Require Import Base SplineModel GradModel NumbaModel Spec SpecBasis SpecGrad GradCases PySyntax PySem SpecText SrcEvalCubicNumba NumbaProps NumbaAgree NumbaR NumbaCases.
Import ListNotations.
Open Scope list_scope.
Open Scope Z_scope.

(** C57.  In any arithmetic in which 6 is not 0 (the reals, the rationals, IEEE doubles), the
    functions for several points, for several splines and for gradients compute, value by value,
    what the function for one point and one spline computes. *)
Theorem C57_points_text (T : Type) (NT : Num T) d (a b : list T) orders fuel coefs points out N p r h' :
  n_is0 (n_ofZ (T := T) 6) = false -> (1 <= d <= 4)%nat ->
  List.length (ashape coefs) = d -> ashape points = [N; p] -> List.length (ashape out) = 1%nat ->
  run_text eval_cubic_numba_py (S fuel) (dim_name "vec_eval_cubic_spline_" d) (arrays 6) []
    [OF (vecT a); OF (vecT b); OI (vecZ orders); OF coefs; OF points; OF out] = Ok (r, h') ->
  exists o, r = PNone /\ h' = [OF (vecT a); OF (vecT b); OI (vecZ orders); OF coefs; OF points; OF o] /\
    forall n, 0 <= n < N -> let pt := row_of (Z.of_nat d) points n in
      run_text eval_cubic_numba_py (S fuel) (dim_name "eval_cubic_spline_" d) (arrays 5) []
        [OF (vecT a); OF (vecT b); OI (vecZ orders); OF coefs; OF (vecT pt)]
      = Ok (PFlt (acell o [n]), [OF (vecT a); OF (vecT b); OI (vecZ orders); OF coefs; OF (vecT pt)]).
Proof. intros H6 Hd. exact (agree_vec H6 d a b orders Hd fuel coefs points out N p r h'). Qed.
Print Assumptions C57_points_text.
Theorem C57_splines_text (T : Type) (NT : Num T) d (a b : list T) orders fuel coefs pt vals r h' :
  n_is0 (n_ofZ (T := T) 6) = false -> (1 <= d <= 4)%nat ->
  List.length (ashape coefs) = (d + 1)%nat -> List.length (ashape vals) = 1%nat ->
  run_text eval_cubic_numba_py (S fuel) (dim_name "eval_cubic_splines_" d) (arrays 6) []
    [OF (vecT a); OF (vecT b); OI (vecZ orders); OF coefs; OF (vecT pt); OF vals] = Ok (r, h') ->
  exists o, r = PNone /\ h' = [OF (vecT a); OF (vecT b); OI (vecZ orders); OF coefs; OF (vecT pt); OF o] /\
    forall k, 0 <= k < last (ashape coefs) 0 ->
      run_text eval_cubic_numba_py (S fuel) (dim_name "eval_cubic_spline_" d) (arrays 5) []
        [OF (vecT a); OF (vecT b); OI (vecZ orders); OF (last_comp coefs k); OF (vecT pt)]
      = Ok (PFlt (acell o [k]), [OF (vecT a); OF (vecT b); OI (vecZ orders); OF (last_comp coefs k); OF (vecT pt)]).
Proof. intros H6 Hd. exact (agree_splines H6 d a b orders Hd fuel coefs pt vals r h'). Qed.
Print Assumptions C57_splines_text.
Theorem C57_points_splines_text (T : Type) (NT : Num T) d (a b : list T) orders fuel coefs points vals N p r h' :
  n_is0 (n_ofZ (T := T) 6) = false -> (1 <= d <= 4)%nat ->
  List.length (ashape coefs) = (d + 1)%nat -> ashape points = [N; p] -> List.length (ashape vals) = 2%nat ->
  run_text eval_cubic_numba_py (S fuel) (dim_name "vec_eval_cubic_splines_" d) (arrays 6) []
    [OF (vecT a); OF (vecT b); OI (vecZ orders); OF coefs; OF points; OF vals] = Ok (r, h') ->
  exists o, r = PNone /\ h' = [OF (vecT a); OF (vecT b); OI (vecZ orders); OF coefs; OF points; OF o] /\
    forall n k, 0 <= n < N -> 0 <= k < last (ashape coefs) 0 -> let pt := row_of (Z.of_nat d) points n in
      run_text eval_cubic_numba_py (S fuel) (dim_name "eval_cubic_spline_" d) (arrays 5) []
        [OF (vecT a); OF (vecT b); OI (vecZ orders); OF (last_comp coefs k); OF (vecT pt)]
      = Ok (PFlt (acell o [n; k]), [OF (vecT a); OF (vecT b); OI (vecZ orders); OF (last_comp coefs k); OF (vecT pt)]).
Proof. intros H6 Hd. exact (agree_vec_splines H6 d a b orders Hd fuel coefs points vals N p r h'). Qed.
Print Assumptions C57_points_splines_text.
Theorem C57_gradient_values_text (T : Type) (NT : Num T) d (a b : list T) orders fuel coefs points vals dvals N p r h' :
  n_is0 (n_ofZ (T := T) 6) = false -> (1 <= d <= 4)%nat ->
  List.length (ashape coefs) = (d + 1)%nat -> ashape points = [N; p] -> List.length (ashape vals) = 2%nat -> List.length (ashape dvals) = 3%nat ->
  run_text eval_cubic_numba_py (S fuel) (dim_name "vec_eval_cubic_splines_G_" d) (arrays 7) []
    [OF (vecT a); OF (vecT b); OI (vecZ orders); OF coefs; OF points; OF vals; OF dvals] = Ok (r, h') ->
  exists V D, r = PNone /\ h' = [OF (vecT a); OF (vecT b); OI (vecZ orders); OF coefs; OF points; OF V; OF D] /\
    run_text eval_cubic_numba_py (S fuel) (dim_name "vec_eval_cubic_splines_" d) (arrays 6) []
      [OF (vecT a); OF (vecT b); OI (vecZ orders); OF coefs; OF points; OF vals]
    = Ok (PNone, [OF (vecT a); OF (vecT b); OI (vecZ orders); OF coefs; OF points; OF V]).
Proof. intros H6 Hd. exact (agree_G H6 d a b orders Hd fuel coefs points vals dvals N p r h'). Qed.
Print Assumptions C57_gradient_values_text.
Example C57_case_Q : n_is0 (n_ofZ (T := Q) 6) = false /\
  succeeds (T := Q) (fun f n h => run_text eval_cubic_numba_py 1 f (arrays n) [] h) = true.
Proof. split; [reflexivity|exact xruns_Q]. Qed.
Example C57_case_float : n_is0 (n_ofZ (T := PrimFloat.float) 6) = false /\
  succeeds (T := PrimFloat.float) (fun f n h => run_text eval_cubic_numba_py 1 f (arrays n) [] h) = true.
Proof. split; [reflexivity|exact xruns_F]. Qed.

(** C58.  Over the reals these functions compute the tensor product cubic spline inside of the
    domain and agree with [eval_spline(k=3)] (linear extrapolation) everywhere; the gradients are
    the true ones inside of the domain (C49). *)
Theorem C58_spline_text g fuel C pt :
  valid_grid (unif_grid g) -> (1 <= List.length g <= 4)%nat ->
  coefs_ok 3 (unif_grid g) [] C -> List.length pt = List.length g ->
  let h := [OF (vecT (lower g)); OF (vecT (upper g)); OI (vecZ (counts g)); OF C; OF (vecT pt)] in
  exists v, run_text eval_cubic_numba_py (S fuel) (dim_name "eval_cubic_spline_" (List.length g)) (arrays 5) [] h = Ok (PFlt v, h) /\
    value_at 3 None XLinear (unif_grid g) [] C pt [] v /\
    (in_domain (unif_grid g) pt -> v = tensor_spline g pt (acell C)).
Proof. intros Hv Hd. exact (text_spline_R g Hv Hd fuel C pt). Qed.
Print Assumptions C58_spline_text.
Theorem C58_points_text g fuel C points N p out :
  valid_grid (unif_grid g) -> (1 <= List.length g <= 4)%nat ->
  coefs_ok 3 (unif_grid g) [] C -> ashape points = [N; p] -> 0 <= N -> zlen g <= p -> ashape out = [N] ->
  let h o := [OF (vecT (lower g)); OF (vecT (upper g)); OI (vecZ (counts g)); OF C; OF points; OF o] in
  exists o, run_text eval_cubic_numba_py (S fuel) (dim_name "vec_eval_cubic_spline_" (List.length g)) (arrays 6) [] (h out) = Ok (PNone, h o) /\
    ashape o = [N] /\ forall n, 0 <= n < N ->
      value_at 3 None XLinear (unif_grid g) [] C (row_of (zlen g) points n) [] (acell o [n]) /\
      (in_domain (unif_grid g) (row_of (zlen g) points n) -> acell o [n] = tensor_spline g (row_of (zlen g) points n) (acell C)).
Proof. intros Hv Hd. exact (text_vec_spline_R g Hv Hd fuel C points N p out). Qed.
Print Assumptions C58_points_text.
Theorem C58_splines_text g fuel C ns pt vals :
  valid_grid (unif_grid g) -> (1 <= List.length g <= 4)%nat ->
  coefs_ok 3 (unif_grid g) [ns] C -> List.length pt = List.length g -> ashape vals = [ns] ->
  let h o := [OF (vecT (lower g)); OF (vecT (upper g)); OI (vecZ (counts g)); OF C; OF (vecT pt); OF o] in
  exists o, run_text eval_cubic_numba_py (S fuel) (dim_name "eval_cubic_splines_" (List.length g)) (arrays 6) [] (h vals) = Ok (PNone, h o) /\
    ashape o = [ns] /\ forall k, 0 <= k < ns ->
      value_at 3 None XLinear (unif_grid g) [ns] C pt [k] (acell o [k]) /\
      (in_domain (unif_grid g) pt -> acell o [k] = tensor_spline g pt (fun idx => acell C (idx ++ [k]))).
Proof. intros Hv Hd. exact (text_splines_R g Hv Hd fuel C ns pt vals). Qed.
Print Assumptions C58_splines_text.
Theorem C58_points_splines_text g fuel C ns points N p vals :
  valid_grid (unif_grid g) -> (1 <= List.length g <= 4)%nat ->
  coefs_ok 3 (unif_grid g) [ns] C -> ashape points = [N; p] -> 0 <= N -> zlen g <= p -> ashape vals = [N; ns] ->
  let h o := [OF (vecT (lower g)); OF (vecT (upper g)); OI (vecZ (counts g)); OF C; OF points; OF o] in
  exists o, run_text eval_cubic_numba_py (S fuel) (dim_name "vec_eval_cubic_splines_" (List.length g)) (arrays 6) [] (h vals) = Ok (PNone, h o) /\
    ashape o = [N; ns] /\ forall n k, 0 <= n < N -> 0 <= k < ns ->
      value_at 3 None XLinear (unif_grid g) [ns] C (row_of (zlen g) points n) [k] (acell o [n; k]) /\
      (in_domain (unif_grid g) (row_of (zlen g) points n) ->
       acell o [n; k] = tensor_spline g (row_of (zlen g) points n) (fun idx => acell C (idx ++ [k]))).
Proof. intros Hv Hd. exact (text_vec_splines_R g Hv Hd fuel C ns points N p vals). Qed.
Print Assumptions C58_points_splines_text.
Theorem C58_gradient_text g fuel C ns points N p vals dvals :
  valid_grid (unif_grid g) -> (1 <= List.length g <= 4)%nat ->
  coefs_ok 3 (unif_grid g) [ns] C -> ashape points = [N; p] -> 0 <= N -> zlen g <= p ->
  ashape vals = [N; ns] -> ashape dvals = [N; zlen g; ns] ->
  let h o := [OF (vecT (lower g)); OF (vecT (upper g)); OI (vecZ (counts g)); OF C; OF points; OF (fst o); OF (snd o)] in
  exists V D, run_text eval_cubic_numba_py (S fuel) (dim_name "vec_eval_cubic_splines_G_" (List.length g)) (arrays 7) [] (h (vals, dvals)) = Ok (PNone, h (V, D)) /\
    ashape V = [N; ns] /\ ashape D = [N; zlen g; ns] /\
    forall n k F, 0 <= n < N -> 0 <= k < ns -> is_interpolant g ns C k F ->
      acell V [n; k] = F (row_of (zlen g) points n) /\
      forall m, (m < List.length g)%nat ->
        in_dim (nth m (unif_grid g) (Unif 0 0 0)%R) (nth m (row_of (zlen g) points n) 0%R) ->
        partial_at F (row_of (zlen g) points n) m (acell D [n; Z.of_nat m; k]).
Proof. intros Hv Hd. exact (text_splines_G_R g Hv Hd fuel C ns points N p vals dvals). Qed.
Print Assumptions C58_gradient_text.
Example C58_case : valid_grid (unif_grid g2) /\ (1 <= List.length g2 <= 4)%nat /\ coefs_ok 3 (unif_grid g2) [] C2s /\ coefs_ok 3 (unif_grid g2) [2] C2 /\
  ashape P2_ = [2; 2] /\ in_domain (unif_grid g2) (row_of (zlen g2) P2_ 1) /\ ~ in_domain (unif_grid g2) (row_of (zlen g2) P2_ 0).
Proof. exact case_text. Qed.
Example C58_value : match run_text (T := Q) eval_cubic_numba_py 1 "eval_cubic_spline_2" (arrays 5) [] (xh xC1 (vecT [1 # 3; 1 # 4]%Q) []) with
  | Ok (PFlt v, _) => Qeq v (1 + (1 + 2 * (1 # 3)) * (2 + (1 # 4)))
  | _ => False
  end.
Proof. exact xvalue_Q. Qed.

(** C59.  In any arithmetic in which 6 is not 0, the text computes what the model of NumbaModel.v
    and GradModel.v computes, errors included. *)
Theorem C59_spline (T : Type) (NT : Num T) n d a b orders coefs (point : list T) :
  n_is0 (n_ofZ (T := T) 6) = false -> (1 <= d <= 4)%nat -> List.length (ashape coefs) = d ->
  let h := [OF (vecT a); OF (vecT b); OI (vecZ orders); OF coefs; OF (vecT point)] in
  run_text eval_cubic_numba_py (S n) (dim_name "eval_cubic_spline_" d) (arrays 5) [] h
  = (v <- num_eval_spline (Z.of_nat d) a b orders coefs point ;; Ok (PFlt v, h)).
Proof. intros H6. exact (text_spline H6 n d a b orders coefs point). Qed.
Print Assumptions C59_spline.
Theorem C59_points (T : Type) (NT : Num T) n d a b orders coefs points (out : arr T) :
  n_is0 (n_ofZ (T := T) 6) = false -> (1 <= d <= 4)%nat ->
  List.length (ashape coefs) = d -> List.length (ashape points) = 2%nat -> List.length (ashape out) = 1%nat ->
  let h o := [OF (vecT a); OF (vecT b); OI (vecZ orders); OF coefs; OF points; OF o] in
  run_text eval_cubic_numba_py (S n) (dim_name "vec_eval_cubic_spline_" d) (arrays 6) [] (h out)
  = (o <- num_vec_eval_spline (Z.of_nat d) a b orders coefs points out ;; Ok (PNone, h o)).
Proof. intros H6. exact (text_vec_spline H6 n d a b orders coefs points out). Qed.
Print Assumptions C59_points.
Theorem C59_splines (T : Type) (NT : Num T) n d a b orders coefs point (vals : arr T) :
  n_is0 (n_ofZ (T := T) 6) = false -> (1 <= d <= 4)%nat ->
  List.length (ashape coefs) = (d + 1)%nat -> List.length (ashape vals) = 1%nat ->
  let h o := [OF (vecT a); OF (vecT b); OI (vecZ orders); OF coefs; OF (vecT point); OF o] in
  run_text eval_cubic_numba_py (S n) (dim_name "eval_cubic_splines_" d) (arrays 6) [] (h vals)
  = (o <- num_eval_splines (Z.of_nat d) a b orders coefs point vals ;; Ok (PNone, h o)).
Proof. intros H6. exact (text_splines H6 n d a b orders coefs point vals). Qed.
Print Assumptions C59_splines.
Theorem C59_points_splines (T : Type) (NT : Num T) n d a b orders coefs points (vals : arr T) :
  n_is0 (n_ofZ (T := T) 6) = false -> (1 <= d <= 4)%nat ->
  List.length (ashape coefs) = (d + 1)%nat -> List.length (ashape points) = 2%nat -> List.length (ashape vals) = 2%nat ->
  let h o := [OF (vecT a); OF (vecT b); OI (vecZ orders); OF coefs; OF points; OF o] in
  run_text eval_cubic_numba_py (S n) (dim_name "vec_eval_cubic_splines_" d) (arrays 6) [] (h vals)
  = (o <- num_vec_eval_splines (Z.of_nat d) a b orders coefs points vals ;; Ok (PNone, h o)).
Proof. intros H6. exact (text_vec_splines H6 n d a b orders coefs points vals). Qed.
Print Assumptions C59_points_splines.
Theorem C59_gradient (T : Type) (NT : Num T) n d a b orders coefs points (vals dvals : arr T) :
  n_is0 (n_ofZ (T := T) 6) = false -> (1 <= d <= 4)%nat ->
  List.length (ashape coefs) = (d + 1)%nat -> List.length (ashape points) = 2%nat -> List.length (ashape vals) = 2%nat -> List.length (ashape dvals) = 3%nat ->
  let h o := [OF (vecT a); OF (vecT b); OI (vecZ orders); OF coefs; OF points; OF (fst o); OF (snd o)] in
  run_text eval_cubic_numba_py (S n) (dim_name "vec_eval_cubic_splines_G_" d) (arrays 7) [] (h (vals, dvals))
  = (o <- splines_G (Z.of_nat d) a b orders coefs points vals dvals ;; Ok (PNone, h o)).
Proof. intros H6. exact (text_splines_G H6 n d a b orders coefs points vals dvals). Qed.
Print Assumptions C59_gradient.
Example C59_case : n_is0 (n_ofZ (T := R) 6) = false /\ n_is0 (n_ofZ (T := Q) 6) = false /\ n_is0 (n_ofZ (T := PrimFloat.float) 6) = false /\
  List.length (ashape (xC2 (T := Q))) = 3%nat.
Proof. split; [exact is0_6R|]. split; [reflexivity|]. split; reflexivity. Qed.
