(** Concrete cases for PropsNumba.v. *)
From Coq Require Import ZArith QArith List Bool String Reals Lia Lra.
From Coq Require Floats.
From Verif Require Import Base SplineModel Spec SpecBasis SpecGrad GradCases ExampleData PySyntax PySem SpecText SrcEvalCubicNumba NumbaGen NumbaText NumbaRun NumbaProps NumbaR.
Import ListNotations.
Open Scope list_scope.
Open Scope Z_scope.

(** Two dimensions, in any arithmetic. *)
Section Any.
Context {T : Type} {NT : Num T}.
Definition xa : list T := [n_ofZ 0; n_ofZ (-1)].
Definition xb : list T := [n_ofZ 1; n_ofZ 2].
Definition xn : list Z := [3; 4].
Definition xC1 : arr T := mkArr [5; 6] (fun idx => n_ofZ (nth 0 idx 0 * nth 1 idx 0 + 1)).
Definition xC2 : arr T := mkArr [5; 6; 2] (fun idx => n_ofZ (nth 0 idx 0 * nth 1 idx 0 + nth 2 idx 0)).
Definition xP : arr T := mkArr [3; 2] (fun idx => n_div (n_ofZ (nth 0 idx 0 + 1)) (n_ofZ (3 + nth 1 idx 0))).
Definition xo (sh : list Z) : arr T := mkArr sh (fun _ => n_ofZ 77).
Definition xh (C pts : arr T) (l : list (arr T)) : heap T := [OF (vecT xa); OF (vecT xb); OI (vecZ xn); OF C; OF pts] ++ map OF l.
Definition xcalls : list (string * nat * heap T) :=
  [("eval_cubic_spline_2"%string, 5%nat, xh xC1 (vecT (row_of 2 xP 0)) []); ("vec_eval_cubic_spline_2"%string, 6%nat, xh xC1 xP [xo [3]]);
   ("eval_cubic_splines_2"%string, 6%nat, xh xC2 (vecT (row_of 2 xP 1)) [xo [2]]); ("vec_eval_cubic_splines_2"%string, 6%nat, xh xC2 xP [xo [3; 2]]);
   ("vec_eval_cubic_splines_G_2"%string, 7%nat, xh xC2 xP [xo [3; 2]; xo [3; 2; 2]])].
Definition succeeds (r : string -> nat -> heap T -> res (val T * heap T)) : bool :=
  forallb (fun c : string * nat * heap T => let '(f, n, h) := c in is_ok (r f n h)) xcalls.
Lemma succeeds_text : succeeds (fun f n h => run GG numba_program 1 f (arrays n) [] h) = true ->
  succeeds (fun f n h => run_text eval_cubic_numba_py 1 f (arrays n) [] h) = true.
Proof.
  unfold succeeds. generalize xcalls. induction l as [|[[f n] h] l IH]; intros H; [reflexivity|].
  change (is_ok (run GG numba_program 1 f (arrays n) [] h) && forallb (fun c : string * nat * heap T => let '(f, n, h) := c in is_ok (run GG numba_program 1 f (arrays n) [] h)) l = true) in H.
  apply andb_prop in H as [H1 H2]. apply andb_true_intro. split; [|exact (IH H2)]. rewrite run_text_numba. exact H1.
Qed.
End Any.

Lemma xruns_Q : succeeds (T := Q) (fun f n h => run_text eval_cubic_numba_py 1 f (arrays n) [] h) = true.
Proof. apply succeeds_text. vm_compute. reflexivity. Qed.
Lemma xruns_F : succeeds (T := PrimFloat.float) (fun f n h => run_text eval_cubic_numba_py 1 f (arrays n) [] h) = true.
Proof. apply succeeds_text. vm_compute. reflexivity. Qed.

(** A value: 1 + i j has the tensor product spline 1 + (1 + 2 x) (2 + y). *)
Lemma xvalue_Q : match run_text (T := Q) eval_cubic_numba_py 1 "eval_cubic_spline_2" (arrays 5) [] (xh xC1 (vecT [1 # 3; 1 # 4]) []) with
  | Ok (PFlt v, _) => Qeq v (1 + (1 + 2 * (1 # 3)) * (2 + (1 # 4)))
  | _ => False
  end.
Proof. rewrite run_text_numba. vm_compute. reflexivity. Qed.

Definition C2s : arr R := mkArr [5; 6] (fun idx => IZR (fold_left Z.add idx 0)).
Lemma C2s_ok : coefs_ok 3 (unif_grid g2) [] C2s.
Proof. split; [reflexivity|]. left. reflexivity. Qed.
Lemma case_text : valid_grid (unif_grid g2) /\ (1 <= List.length g2 <= 4)%nat /\ coefs_ok 3 (unif_grid g2) [] C2s /\ coefs_ok 3 (unif_grid g2) [2] C2 /\
  ashape P2_ = [2; 2] /\ in_domain (unif_grid g2) (row_of (zlen g2) P2_ 1) /\ ~ in_domain (unif_grid g2) (row_of (zlen g2) P2_ 0).
Proof.
  split; [apply g2_valid|]. split; [cbn; lia|]. split; [apply C2s_ok|]. split; [apply C2_ok|]. split; [reflexivity|].
  unfold in_domain, in_dim, glo, ghi. split.
  - repeat constructor; simpl; lra.
  - intros H. inversion H as [|? ? ? ? _ H1]; subst. inversion H1 as [|? ? ? ? H2 _]; subst. simpl in H2. destruct H2; lra.
Qed.
