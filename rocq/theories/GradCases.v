(** Witnesses and concrete cases for C49. *)
From Coq Require Import ZArith List Bool Reals Lra Lia Psatz.
From Flocq Require Import Raux.
From Coquelicot Require Import Coquelicot.
From Verif Require Import Base BaseFacts SplineModel Spec EvalGeneric EvalMaster EvalProps RSum EvalValue EvalR WeightsR EvalRProps SpecBasis SpecGrad GradModel GradProps.
Import ListNotations.
Open Scope Z_scope.
Open Scope R_scope.

(** Every valid array of coefficients has an interpolant. *)
Definition interpolant (g : list (R * R * Z)) (C : arr R) (k : Z) (q : list R) : R :=
  VR 3 (unif_grid g) (zeros (unif_grid g)) (fun idx => acell C (idx ++ [k])) q.
Lemma interpolant_ok g ns C k : valid_grid (unif_grid g) -> coefs_ok 3 (unif_grid g) [ns] C -> (0 <= k < ns)%Z ->
  is_interpolant g ns C k (interpolant g C k).
Proof.
  intros Hv HC Hk q Hq. apply value_at_none; auto.
  - right. split; auto. apply all_unif.
  - rewrite unif_grid_length. auto.
  - cbn; rewrite andb_true_r, andb_true_iff, Z.leb_le, Z.ltb_lt; lia.
Qed.

Definition g1 : list (R * R * Z) := [(0, 1, 2%Z)].
Definition C1 : arr R := mkArr [4; 1]%Z (fun idx => if (hd 0 idx =? 3)%Z then 1 else 0).
Definition at_ (x : R) : arr R := mkArr [1; 1]%Z (fun _ => x).
Lemma g1_valid : valid_grid (unif_grid g1).
Proof. repeat constructor; cbn; try lia; lra. Qed.
Lemma C1_ok : coefs_ok 3 (unif_grid g1) [1]%Z C1.
Proof. split; [reflexivity|]. right. exists 1%Z. split; [reflexivity|lia]. Qed.

Lemma cell01 x : cellR (Unif 0 1 2) x = 0%Z.
Proof. pose proof (cellR_range (Unif 0 1 2) x). cbn [gsize] in *. assert (valid_dim (Unif 0 1 2)) by (split; cbn; [lia|lra]). specialize (H H0). lia. Qed.
Lemma lam01 x : lamR (Unif 0 1 2) x = x.
Proof. unfold lamR. rewrite cell01. cbn. field. Qed.
Lemma del01 x : delR (Unif 0 1 2) x = 1.
Proof. cbn. field. Qed.

Lemma true_slope : VR 3 (unif_grid g1) (oom 0 g1) (fun idx => acell C1 (idx ++ [0%Z])) [2] = 1 / 2.
Proof.
  assert (E : Ok (VR 3 (unif_grid g1) (oom 0 g1) (fun idx => acell C1 (idx ++ [0%Z])) [2]) = Ok (1 / 2)).
  { rewrite <- (get_value_R 3 (unif_grid g1) (oom 0 g1) C1 [1%Z] [0%Z] [2]);
      [|apply g1_valid|right; split; auto; apply all_unif|apply C1_ok|reflexivity|apply oom_ok|reflexivity].
    unfold brsR. cbn [unif_grid g1 map2]. rewrite cell01, lam01, del01. cbn -[blend_cubic_j].
    unfold blend_cubic_j. cbn. rewrite (Rlt_bool_false 2 0), (Rlt_bool_true 1 2) by lra. cbn. f_equal. field. }
  now injection E.
Qed.

Lemma returned_slope junk V D :
  vec_eval_cubic_splines_G junk (lower g1) (upper g1) (counts g1) C1 (at_ 2) None None = Ok (V, D) ->
  acell D [0; 0; 0]%Z = 2.
Proof.
  unfold vec_eval_cubic_splines_G.
  change (zlen (lower g1)) with 1%Z. cbn [adim at_ ashape lget]. 
  unfold splines_G. change (zrange 1) with [0%Z]. intros H. 
  assert (ED : mapM (g_dim (lower g1) (upper g1) (counts g1)) [0%Z] = Ok (map dimR g1)) by (apply (g_dims_R g1 g1_valid)).
  rewrite ED in H.
  change (lget [1%Z; 1%Z] 0) with (Ok 1%Z) in H. 
  assert (EC : g_cell 2 (2%Z, 0, (IZR 2 - 1) / (1 - 0)) = (0%Z, (map (g_phi 2) [0; 1; 2; 3]%Z, map (g_dphi 2 1) [0; 1; 2; 3]%Z))).
  { pose proof (g_cell_R 2 (0, 1, 2%Z)) as E. cbn [gof dimR] in E. rewrite E; [|exact (Forall_inv g1_valid)]. now rewrite cell01, lam01, del01. }
  change (adim (at_ 2) 0) with (Ok 1%Z) in H. change (adim C1 (andim C1 - 1)) with (Ok 1%Z) in H. change (adim C1 1) with (Ok 1%Z) in H. cbn [bind andb Z.leb Z.compare Pos.compare Pos.compare_cont] in H.
  change (zrange 1) with [0%Z] in H. cbn [foldM] in H. unfold g_point in H. change (zrange 1) with [0%Z] in H.
  change (map dimR g1) with [(2%Z, 0, (IZR 2 - 1) / (1 - 0))] in H.
  change (mapM (fun k => aget (at_ 2) [0%Z; k]) [0%Z]) with (Ok [2]) in H. cbn [bind map2 foldM] in H. rewrite EC in H.
  unfold g_store, g_sum in H. change (zrange 1) with [0%Z] in H.
  cbn -[g_phi g_dphi] in H.
  injection H as _ <-. cbn. unfold g_dphi, dAd, dCd, Cd, frac6. cbn. field.
Qed.

Theorem gradient_outside_wrong : exists g C points F V D,
  valid_grid (unif_grid g) /\ length g = 1%nat /\ coefs_ok 3 (unif_grid g) [1%Z] C /\ ashape points = [1; 1]%Z /\
  is_interpolant g 1 C 0 F /\
  (forall junk, vec_eval_cubic_splines_G junk (lower g) (upper g) (counts g) C points None None = Ok (V junk, D junk) /\
    ~ partial_at F (row_of 1 points 0) 0 (acell (D junk) [0; 0; 0]%Z)).
Proof.
  exists g1, C1, (at_ 2), (interpolant g1 C1 0).
  assert (HE : forall junk, exists VD, vec_eval_cubic_splines_G junk (lower g1) (upper g1) (counts g1) C1 (at_ 2) None None = Ok VD).
  { intros junk. destruct (gradient_inside junk g1 1 C1 (at_ 2) 1 1 None None) as (V & D & E & _).
    - apply g1_valid. - cbn; lia. - apply C1_ok. - reflexivity. - lia. - unfold zlen; cbn; lia. - exact I. - exact I.
    - exists (V, D). exact E. }
  exists (fun junk => match vec_eval_cubic_splines_G junk (lower g1) (upper g1) (counts g1) C1 (at_ 2) None None with Ok VD => fst VD | Err _ => C1 end),
    (fun junk => match vec_eval_cubic_splines_G junk (lower g1) (upper g1) (counts g1) C1 (at_ 2) None None with Ok VD => snd VD | Err _ => C1 end).
  split; [apply g1_valid|]. split; [reflexivity|]. split; [apply C1_ok|]. split; [reflexivity|].
  split; [apply interpolant_ok; [apply g1_valid|apply C1_ok|lia]|].
  intros junk. destruct (HE junk) as [[V D] E]. rewrite E. split; [reflexivity|]. cbn [snd].
  rewrite (returned_slope junk V D E). intros H.
  assert (H2 : partial_at (interpolant g1 C1 0) [2] 0 (1 / 2)).
  { rewrite <- true_slope. apply (gradient_VR g1 1 C1 0 (interpolant g1 C1 0) [2] 0);
      [apply g1_valid|apply C1_ok|lia|apply interpolant_ok; [apply g1_valid|apply C1_ok|lia]|reflexivity|cbn; lia]. }
  assert (E2 : 2 = 1 / 2) by exact (uniqueness_limite _ _ _ _ H H2). lra.
Qed.

(** With five or more dimensions no function is called. *)
Theorem five_dims_junk g C points N p ns F :
  (5 <= length g)%nat -> coefs_ok 3 (unif_grid g) [ns] C -> ashape points = [N; p] -> (1 <= N)%Z -> (1 <= ns)%Z ->
  is_interpolant g ns C 0 F ->
  exists junk V D, vec_eval_cubic_splines_G junk (lower g) (upper g) (counts g) C points None None = Ok (V, D) /\
    acell V [0; 0]%Z <> F (row_of (zlen g) points 0).
Proof.
  intros Hg [HC _] Hp HN Hns HF. exists (fun _ => F (row_of (zlen g) points 0) + 1).
  unfold vec_eval_cubic_splines_G.
  assert (Ed : zlen (lower g) = zlen g) by (unfold lower; apply zlen_map). rewrite Ed.
  rewrite adim_ok by (rewrite Hp; unfold zlen; cbn; lia). rewrite Hp. cbn [bind nth Z.to_nat].
  assert (Ens : adim C (andim C - 1) = Ok ns).
  { unfold andim. rewrite adim_ok by (rewrite HC, zlen_app; change (zlen [ns]) with 1%Z; pose proof (zlen_nonneg (map (csize 3) (unif_grid g))); lia).
    rewrite HC, zlen_app. change (zlen [ns]) with 1%Z. f_equal.
    replace (Z.to_nat (zlen (map (csize 3) (unif_grid g)) + 1 - 1)) with (length (map (csize 3) (unif_grid g))) by (unfold zlen; lia).
    apply nth_app_last. }
  rewrite Ens. cbn [bind]. rewrite (proj2 (Z.leb_gt (zlen g) 4)) by (unfold zlen; lia). rewrite andb_false_r.
  eexists. eexists. split; [reflexivity|]. cbn [acell]. lra.
Qed.

(** ** Cases *)
Definition g2 : list (R * R * Z) := [(0, 1, 3%Z); (-1, 2, 4%Z)].
Definition C2 : arr R := mkArr [5; 6; 2]%Z (fun idx => IZR (fold_left Z.add idx 0%Z)).
Definition P2_ : arr R := mkArr [2; 2]%Z (fun idx => match idx with [0%Z; 0%Z] => 1 / 3 | [0%Z; 1%Z] => 5 | _ => 1 end).
Lemma g2_valid : valid_grid (unif_grid g2).
Proof. repeat constructor; cbn; try lia; lra. Qed.
Lemma C2_ok : coefs_ok 3 (unif_grid g2) [2]%Z C2.
Proof. split; [reflexivity|]. right. exists 2%Z. split; [reflexivity|lia]. Qed.
Lemma case_gradient : valid_grid (unif_grid g2) /\ (1 <= length g2 <= 4)%nat /\ coefs_ok 3 (unif_grid g2) [2%Z] C2 /\
  ashape P2_ = [2; 2]%Z /\ (exists F, is_interpolant g2 2 C2 1 F) /\
  in_dim (nth 0 (unif_grid g2) (Unif 0 0 0)) (nth 0 (row_of 2 P2_ 0) 0) /\
  ~ in_dim (nth 1 (unif_grid g2) (Unif 0 0 0)) (nth 1 (row_of 2 P2_ 0) 0).
Proof.
  split; [apply g2_valid|]. split; [cbn; lia|]. split; [apply C2_ok|]. split; [reflexivity|]. split.
  - eexists. apply interpolant_ok; [apply g2_valid|apply C2_ok|lia].
  - unfold in_dim, glo, ghi. simpl. split; [split; lra|intros [A B]; lra].
Qed.

Definition g5 : list (R * R * Z) := [(0, 1, 2%Z); (0, 1, 2%Z); (0, 1, 2%Z); (0, 1, 2%Z); (0, 1, 2%Z)].
Definition C5 : arr R := mkArr [4; 4; 4; 4; 4; 1]%Z (fun _ => 1).
Lemma case_five : (5 <= length g5)%nat /\ coefs_ok 3 (unif_grid g5) [1%Z] C5 /\ exists F, is_interpolant g5 1 C5 0 F.
Proof.
  assert (HC : coefs_ok 3 (unif_grid g5) [1%Z] C5) by (split; [reflexivity|right; exists 1%Z; split; [reflexivity|lia]]).
  split; [cbn; lia|]. split; [exact HC|]. eexists. apply interpolant_ok; [|exact HC|lia].
  repeat constructor; cbn; try lia; lra.
Qed.
