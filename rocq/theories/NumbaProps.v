(** The text of eval_cubic_numba.py: the model (any arithmetic) and the cubic spline (reals). *)
From Coq Require Import ZArith List Bool String Lia.
From Verif Require Import Base BaseFacts SplineModel GradModel NumbaModel PySyntax PySem SpecText PySemFacts SrcEvalCubicNumba NumbaGen NumbaText NumbaSem NumbaRun.
Import ListNotations.
Open Scope list_scope.
Open Scope Z_scope.

Section Text.
Context {T : Type} {NT : Num T}.
Hypothesis H6 : n_is0 (n_ofZ (T := T) 6) = false.

Lemma find_numba k name d ps body : In (k, name) [(0%nat, "eval_cubic_spline_"); (1%nat, "vec_eval_cubic_spline_"); (2%nat, "eval_cubic_splines_"); (3%nat, "vec_eval_cubic_splines_"); (4%nat, "vec_eval_cubic_splines_G_")]%string ->
  (1 <= d <= 4)%nat -> nth k (numba_defs d) (""%string, ([], [])) = (dim_name name d, (ps, body)) ->
  find_def numba_program (dim_name name d) = Some (ps, body).
Proof.
  intros Hk Hd Hn. cbn [In] in Hk.
  repeat match goal with H : _ \/ _ |- _ => destruct H | H : False |- _ => destruct H end;
  match goal with H : (_, _) = (_, _) |- _ => injection H as <- <- end;
  (destruct d as [|[|[|[|[|d]]]]]; try lia; injection Hn as <- <-; reflexivity).
Qed.

Lemma no_overloads f : overloads numba_program f = [].
Proof. reflexivity. Qed.

Lemma run_text_numba n f vs h : run_text (T := T) eval_cubic_numba_py n f vs [] h = run (GG (T := T)) numba_program n f vs [] h.
Proof. unfold run_text, GG. rewrite numba_text. reflexivity. Qed.

Theorem text_spline n d a b orders coefs (point : list T) : (1 <= d <= 4)%nat -> List.length (ashape coefs) = d ->
  let h := [OF (vecT a); OF (vecT b); OI (vecZ orders); OF coefs; OF (vecT point)] in
  run_text eval_cubic_numba_py (S n) (dim_name "eval_cubic_spline_" d) (arrays 5) [] h
  = (v <- num_eval_spline (Z.of_nat d) a b orders coefs point ;; Ok (PFlt v, h)).
Proof.
  intros Hd Rc h. rewrite run_text_numba. rewrite (run_def _ _ _ _ _ _ _ _ _ (no_overloads _) (find_numba 0 _ d eval_spline_ps (eval_spline_body d) ltac:(cbn; auto 10) Hd eq_refl)).
  apply (run_spline H6 (run GG numba_program n) n d a b orders coefs point); [lia|auto].
Qed.
Theorem text_vec_spline n d a b orders coefs points (out : arr T) : (1 <= d <= 4)%nat ->
  List.length (ashape coefs) = d -> List.length (ashape points) = 2%nat -> List.length (ashape out) = 1%nat ->
  let h o := [OF (vecT a); OF (vecT b); OI (vecZ orders); OF coefs; OF points; OF o] in
  run_text eval_cubic_numba_py (S n) (dim_name "vec_eval_cubic_spline_" d) (arrays 6) [] (h out)
  = (o <- num_vec_eval_spline (Z.of_nat d) a b orders coefs points out ;; Ok (PNone, h o)).
Proof.
  intros Hd Rc Rp Ro h. rewrite run_text_numba. rewrite (run_def _ _ _ _ _ _ _ _ _ (no_overloads _) (find_numba 1 _ d vec_eval_spline_ps (vec_eval_spline_body d) ltac:(cbn; auto 10) Hd eq_refl)).
  apply (run_vec_spline H6 (run GG numba_program n) n d a b orders coefs points out); auto. lia.
Qed.
Theorem text_splines n d a b orders coefs point (vals : arr T) : (1 <= d <= 4)%nat ->
  List.length (ashape coefs) = (d + 1)%nat -> List.length (ashape vals) = 1%nat ->
  let h o := [OF (vecT a); OF (vecT b); OI (vecZ orders); OF coefs; OF (vecT point); OF o] in
  run_text eval_cubic_numba_py (S n) (dim_name "eval_cubic_splines_" d) (arrays 6) [] (h vals)
  = (o <- num_eval_splines (Z.of_nat d) a b orders coefs point vals ;; Ok (PNone, h o)).
Proof.
  intros Hd Rc Ro h. rewrite run_text_numba. rewrite (run_def _ _ _ _ _ _ _ _ _ (no_overloads _) (find_numba 2 _ d eval_splines_ps (eval_splines_body d) ltac:(cbn; auto 10) Hd eq_refl)).
  apply (run_splines H6 (run GG numba_program n) n d a b orders coefs point vals); auto. lia.
Qed.
Theorem text_vec_splines n d a b orders coefs points (vals : arr T) : (1 <= d <= 4)%nat ->
  List.length (ashape coefs) = (d + 1)%nat -> List.length (ashape points) = 2%nat -> List.length (ashape vals) = 2%nat ->
  let h o := [OF (vecT a); OF (vecT b); OI (vecZ orders); OF coefs; OF points; OF o] in
  run_text eval_cubic_numba_py (S n) (dim_name "vec_eval_cubic_splines_" d) (arrays 6) [] (h vals)
  = (o <- num_vec_eval_splines (Z.of_nat d) a b orders coefs points vals ;; Ok (PNone, h o)).
Proof.
  intros Hd Rc Rp Ro h. rewrite run_text_numba. rewrite (run_def _ _ _ _ _ _ _ _ _ (no_overloads _) (find_numba 3 _ d vec_eval_splines_ps (vec_eval_splines_body d) ltac:(cbn; auto 10) Hd eq_refl)).
  apply (run_vec_splines H6 (run GG numba_program n) n d a b orders coefs points vals); auto. lia.
Qed.
Theorem text_splines_G n d a b orders coefs points (vals dvals : arr T) : (1 <= d <= 4)%nat ->
  List.length (ashape coefs) = (d + 1)%nat -> List.length (ashape points) = 2%nat -> List.length (ashape vals) = 2%nat -> List.length (ashape dvals) = 3%nat ->
  let h o := [OF (vecT a); OF (vecT b); OI (vecZ orders); OF coefs; OF points; OF (fst o); OF (snd o)] in
  run_text eval_cubic_numba_py (S n) (dim_name "vec_eval_cubic_splines_G_" d) (arrays 7) [] (h (vals, dvals))
  = (o <- splines_G (Z.of_nat d) a b orders coefs points vals dvals ;; Ok (PNone, h o)).
Proof.
  intros Hd Rc Rp Ro Rd h. rewrite run_text_numba. rewrite (run_def _ _ _ _ _ _ _ _ _ (no_overloads _) (find_numba 4 _ d vec_eval_splines_G_ps (vec_eval_splines_G_body d) ltac:(cbn; auto 10) Hd eq_refl)).
  apply (run_G H6 (run GG numba_program n) n d a b orders coefs points); auto. lia.
Qed.
End Text.
