(** Rounding errors of spline evaluation, one dimension (C72). *)
From Coq Require Import ZArith List Bool Reals Lia Lra Psatz ZifyBool.
From Coquelicot Require Import Coquelicot.
From Flocq Require Import Core.Raux.
From Verif Require Import Base BaseFacts SplineModel Spec SpecRound EvalGeneric EvalR WeightsR RSum EvalRProps.
Import ListNotations.
Open Scope R_scope.

(** ** The exact spline of one dimension is Lipschitz continuous *)
Definition wt (k j : Z) (t : R) : R := if (k =? 1)%Z then (if (j =? 0)%Z then 1 - t else t) else ebsp j t.
Definition piece (k : Z) (f : Z -> R) (c : Z) (t : R) : R := zsum (k + 1) (fun j => wt k j t * f (c + j)%Z).

Lemma dbsp_bound j t : 0 <= t <= 1 -> Rabs (dbsp j t) <= 1.
Proof.
  intros H. assert (0 <= t * t <= 1) by nra. apply Rabs_le. unfold dbsp.
  destruct j as [|[[p|p|]|[p|p|]|]|p]; try lra; nra.
Qed.
Lemma edbsp_bound j t : Rabs (edbsp j t) <= 1.
Proof.
  unfold edbsp. destruct (Rlt_bool_spec t 0); [apply dbsp_bound; lra|].
  destruct (Rlt_bool_spec 1 t); apply dbsp_bound; lra.
Qed.
Lemma ebsp_lip j t s : Rabs (ebsp j t - ebsp j s) <= Rabs (t - s).
Proof.
  assert (X : forall a b, a < b -> Rabs (ebsp j b - ebsp j a) <= Rabs (b - a)).
  { intros a b H. destruct (MVT_cor2 (ebsp j) (edbsp j) a b H) as (c & E & _).
    - intros c _. apply is_derive_Reals. apply ebsp_derive.
    - rewrite E, Rabs_mult. pose proof (edbsp_bound j c). pose proof (Rabs_pos (b - a)). nra. }
  destruct (Rtotal_order t s) as [H|[->|H]].
  - rewrite (Rabs_minus_sym (ebsp j t)), (Rabs_minus_sym t). auto.
  - unfold Rminus. rewrite !Rplus_opp_r, Rabs_R0. lra.
  - auto.
Qed.
Lemma wt_lip k j t s : Rabs (wt k j t - wt k j s) <= Rabs (t - s).
Proof.
  unfold wt. destruct (k =? 1)%Z; [|apply ebsp_lip]. destruct (j =? 0)%Z; [|lra].
  replace (1 - t - (1 - s)) with (- (t - s)) by ring. rewrite Rabs_Ropp. lra.
Qed.
Lemma zsum_abs n f : Rabs (zsum n f) <= zsum n (fun i => Rabs (f i)).
Proof.
  destruct (Z_le_gt_dec n 0) as [H|H]. { rewrite !zsum_0, Rabs_R0 by lia. lra. }
  revert n H. assert (G : forall n, (0 <= n)%Z -> Rabs (zsum n f) <= zsum n (fun i => Rabs (f i))).
  { apply zsum_ind. { rewrite !zsum_0, Rabs_R0 by lia. lra. }
    intros n Hn IH. rewrite !zsum_S by lia. pose proof (Rabs_triang (zsum n f) (f n)). lra. }
  intros n H. apply G. lia.
Qed.
Lemma zsum_bound n f b : (0 <= n)%Z -> (forall i, (0 <= i < n)%Z -> Rabs (f i) <= b) -> Rabs (zsum n f) <= IZR n * b.
Proof.
  intros Hn H. eapply Rle_trans; [apply zsum_abs|]. rewrite <- zsum_const by auto. apply zsum_le. auto.
Qed.
(** Weights that differ by at most [e] *)
Lemma sum_close k (ws : Z -> R) f c t e M : (0 <= k)%Z -> 0 <= e ->
  (forall j, (0 <= j <= k)%Z -> Rabs (ws j - wt k j t) <= e) -> (forall j, (0 <= j <= k)%Z -> Rabs (f (c + j)%Z) <= M) ->
  Rabs (zsum (k + 1) (fun j => ws j * f (c + j)%Z) - piece k f c t) <= IZR (k + 1) * (e * M).
Proof.
  intros Hk He Hw Hf. unfold piece. rewrite <- zsum_minus. apply zsum_bound; [lia|]. intros j Hj.
  replace (ws j * f (c + j)%Z - wt k j t * f (c + j)%Z) with ((ws j - wt k j t) * f (c + j)%Z) by ring.
  rewrite Rabs_mult. apply Rmult_le_compat; try apply Rabs_pos; [apply Hw|apply Hf]; lia.
Qed.
Lemma piece_lip k f c t s M : (0 <= k)%Z -> (forall j, (0 <= j <= k)%Z -> Rabs (f (c + j)%Z) <= M) ->
  Rabs (piece k f c t - piece k f c s) <= IZR (k + 1) * (Rabs (t - s) * M).
Proof. intros Hk Hf. apply sum_close; auto using Rabs_pos. intros; apply wt_lip. Qed.

Lemma wsum_piece k g f c x : (k = 1 \/ k = 3)%Z -> valid_dim g -> admissible g c x ->
  wsum k 0 g f x = piece k f c (lamC g c x).
Proof.
  intros Hk Hg Ha. unfold wsum, piece. pose proof (proj1 Ha) as Hc.
  rewrite (zsum_window _ _ c (k + 1)); unfold csize; try lia.
  - apply zsum_ext. intros j Hj. f_equal. destruct Hk as [->| ->].
    + rewrite (phi1_any g _ c x Hg Ha). unfold piece1, wt. cbn. assert (j = 0 \/ j = 1)%Z as [-> | ->] by lia.
      * rewrite Z.add_0_r, Z.eqb_refl. reflexivity.
      * replace (c + 1 =? c)%Z with false by lia. rewrite Z.eqb_refl. reflexivity.
    + rewrite (phi3_any g _ c x Hg Ha). unfold piece3, wt. cbn [Z.eqb Pos.eqb].
      replace ((c <=? c + j)%Z && (c + j <=? c + 3)%Z) with true by lia. f_equal. lia.
  - intros i Hi Ho. destruct Hk as [->| ->].
    + rewrite (phi1_any g _ c x Hg Ha). unfold piece1. replace (i =? c)%Z with false by lia. replace (i =? c + 1)%Z with false by lia. ring.
    + rewrite (phi3_any g _ c x Hg Ha). unfold piece3. replace ((c <=? i)%Z && (i <=? c + 3)%Z) with false by lia. ring.
Qed.

Lemma lip_cells g V K : valid_dim g ->
  (forall c x y, admissible g c x -> admissible g c y -> Rabs (V y - V x) <= K * Rabs (y - x)) ->
  forall x y, Rabs (V y - V x) <= K * Rabs (y - x).
Proof.
  intros Hg H.
  assert (G : forall m c x y, admissible g c x -> admissible g (c + Z.of_nat m) y -> x <= y -> Rabs (V y - V x) <= K * (y - x)).
  { induction m as [|m IH]; intros c x y Hx Hy L.
    - replace (c + Z.of_nat 0)%Z with c in Hy by lia. specialize (H c x y Hx Hy). rewrite (Rabs_right (y - x)) in H by lra. exact H.
    - set (z := gnode g (c + 1)). pose proof (proj1 Hx) as Cx. pose proof (proj1 Hy) as Cy.
      assert (Az : admissible g c z /\ admissible g (c + 1) z).
      { split; (split; [lia|split; intros; unfold z]); try lra.
        - apply Rlt_le, gnode_lt; auto; lia.
        - apply Rlt_le, gnode_lt; auto; lia. }
      destruct Az as [A1 A2].
      assert (Xz : x <= z) by (apply (proj2 (proj2 Hx)); lia).
      assert (Zy : z <= y).
      { apply Rle_trans with (gnode g (c + Z.of_nat (S m))); [|apply (proj1 (proj2 Hy)); lia]. unfold z. apply gnode_le; auto; lia. }
      specialize (IH (c + 1)%Z z y A2). replace (c + 1 + Z.of_nat m)%Z with (c + Z.of_nat (S m))%Z in IH by lia. specialize (IH Hy Zy).
      specialize (H c x z Hx A1). rewrite (Rabs_right (z - x)) in H by lra.
      replace (V y - V x) with ((V y - V z) + (V z - V x)) by ring.
      pose proof (Rabs_triang (V y - V z) (V z - V x)). lra. }
  assert (G2 : forall x y, x <= y -> Rabs (V y - V x) <= K * (y - x)).
  { intros x y L. pose proof (cellR_admissible g x Hg) as Ax. pose proof (cellR_admissible g y Hg) as Ay.
    destruct (Z_le_gt_dec (cellR g x) (cellR g y)) as [Lc|Lc].
    - apply (G (Z.to_nat (cellR g y - cellR g x)) (cellR g x)); auto. rewrite Z2Nat.id by lia. replace (cellR g x + (cellR g y - cellR g x))%Z with (cellR g y) by lia. auto.
    - (* x <= y in cells the other way round: both are at a node *)
      destruct (admissible_unique g (cellR g y) (cellR g x) x Hg) as [E1 E2]; try lia; auto.
      { pose proof (proj1 Ax). pose proof (proj1 Ay). split; [lia|]. split; intros.
        - apply Rle_trans with (gnode g (cellR g x)); [apply gnode_le; auto; lia|apply (proj1 (proj2 Ax)); lia].
        - eapply Rle_trans; [exact L|]. apply (proj2 (proj2 Ay)). lia. }
      specialize (H (cellR g y) x y). rewrite (Rabs_right (y - x)) in H by lra. apply H; auto.
      pose proof (proj1 Ax). pose proof (proj1 Ay). split; [lia|]. split; intros.
      + apply Rle_trans with (gnode g (cellR g x)); [apply gnode_le; auto; lia|lra].
      + replace (cellR g y + 1)%Z with (cellR g x) by lia. lra. }
  intros x y. destruct (Rle_lt_dec x y) as [L|L].
  - rewrite (Rabs_right (y - x)) by lra. auto.
  - rewrite (Rabs_minus_sym (V y)), (Rabs_left (y - x)) by lra. replace (- (y - x)) with (x - y) by ring. apply G2. lra.
Qed.
Definition hstep (a b : R) (n : Z) : R := (b - a) / (IZR n - 1).
Lemma wsum_lip k a b n f M x y : (k = 1 \/ k = 3)%Z -> valid_dim (Unif a b n) -> (forall i, (0 <= i < csize k (Unif a b n))%Z -> Rabs (f i) <= M) ->
  Rabs (wsum k 0 (Unif a b n) f y - wsum k 0 (Unif a b n) f x) <= IZR (k + 1) * M / hstep a b n * Rabs (y - x).
Proof.
  intros Hk Hg Hf. apply (lip_cells (Unif a b n)); auto. intros c p q Hp Hq.
  rewrite !(wsum_piece k _ f c) by auto. pose proof (unif_step a b n Hg) as Hs. fold (hstep a b n) in Hs.
  eapply Rle_trans.
  { apply (piece_lip k f c _ _ M); [lia|]. intros j Hj. apply Hf. pose proof (proj1 Hp). unfold csize. lia. }
  assert (E : lamC (Unif a b n) c q - lamC (Unif a b n) c p = (q - p) / hstep a b n).
  { unfold lamC. cbn [gnode]. rewrite plus_IZR. unfold hstep in *. field. pose proof (gsize_IZR _ Hg) as HI. cbn in HI. destruct Hg as [_ Hg]. cbn in Hg. lra. }
  rewrite E. unfold Rdiv. rewrite Rabs_mult, (Rabs_right (/ hstep a b n)) by (apply Rle_ge, Rlt_le, Rinv_0_lt_compat; auto). apply Req_le. ring.
Qed.
