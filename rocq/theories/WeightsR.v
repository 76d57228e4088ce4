(** One dimension at a time: the cardinal functions [phi] over the reals. *)
From Coq Require Import ZArith List Bool Reals Lia Lra Psatz ZifyBool.
From Coquelicot Require Import Coquelicot.
From Flocq Require Import Core.Raux.
From Verif Require Import Base BaseFacts SplineModel Spec EvalR RSum.
Import ListNotations.
Open Scope R_scope.

(** ** Gluing pieces *)
Lemma glue_derive (F P1 P2 : R -> R) x eps D :
  0 < eps ->
  (forall y, x - eps <= y <= x -> F y = P1 y) ->
  (forall y, x <= y <= x + eps -> F y = P2 y) ->
  is_derive P1 x D -> is_derive P2 x D -> is_derive F x D.
Proof.
  intros He H1 H2 D1 D2. apply is_derive_Reals. apply is_derive_Reals in D1. apply is_derive_Reals in D2.
  intros e Hpos. destruct (D1 e Hpos) as [d1 Hd1]. destruct (D2 e Hpos) as [d2 Hd2].
  assert (Hm : 0 < Rmin eps (Rmin d1 d2)).
  { apply Rmin_glb_lt; auto. apply Rmin_glb_lt; apply cond_pos. }
  exists (mkposreal _ Hm). intros h Hh Hlt. cbn in Hlt.
  pose proof (Rmin_l eps (Rmin d1 d2)). pose proof (Rmin_r eps (Rmin d1 d2)).
  pose proof (Rmin_l d1 d2). pose proof (Rmin_r d1 d2).
  destruct (Rlt_le_dec h 0) as [L|L].
  - rewrite Rabs_left in Hlt by auto. rewrite (H1 (x + h)), (H1 x) by lra.
    apply Hd1; auto. rewrite Rabs_left by auto. lra.
  - rewrite Rabs_right in Hlt by lra. rewrite (H2 (x + h)), (H2 x) by lra.
    apply Hd2; auto. rewrite Rabs_right by lra. lra.
Qed.

Lemma glue_continuous (F P1 P2 : R -> R) x eps :
  0 < eps ->
  (forall y, x - eps <= y <= x -> F y = P1 y) ->
  (forall y, x <= y <= x + eps -> F y = P2 y) ->
  continuity_pt P1 x -> continuity_pt P2 x -> continuity_pt F x.
Proof.
  intros He H1 H2 D1 D2 e Hpos.
  destruct (D1 e Hpos) as [d1 [Hp1 Hd1]]. destruct (D2 e Hpos) as [d2 [Hp2 Hd2]].
  exists (Rmin eps (Rmin d1 d2)). split.
  { apply Rmin_glb_lt; auto. apply Rmin_glb_lt; auto. }
  intros y [Hy Hlt]. cbn in *. unfold R_dist in *.
  pose proof (Rmin_l eps (Rmin d1 d2)). pose proof (Rmin_r eps (Rmin d1 d2)).
  pose proof (Rmin_l d1 d2). pose proof (Rmin_r d1 d2).
  destruct (Rlt_le_dec y x) as [L|L].
  - rewrite Rabs_left in Hlt by lra. rewrite (H1 y), (H1 x) by lra.
    apply Hd1. split; auto. cbn. unfold R_dist. rewrite Rabs_left by lra. lra.
  - rewrite Rabs_right in Hlt by lra. rewrite (H2 y), (H2 x) by lra.
    apply Hd2. split; auto. cbn. unfold R_dist. rewrite Rabs_right by lra. lra.
Qed.

(** Cells a point belongs to. *)
Definition admissible (g : gdim R) (c : Z) (x : R) : Prop :=
  (0 <= c <= gsize g - 2)%Z /\
  ((0 < c)%Z -> gnode g c <= x) /\ ((c < gsize g - 2)%Z -> x <= gnode g (c + 1)).

Lemma cellR_admissible g x : valid_dim g -> admissible g (cellR g x) x.
Proof.
  intros H. split; [now apply cellR_range|]. split; intros; [now apply cell_left|now apply cell_right].
Qed.

Lemma admissible_unique g c c' x : valid_dim g -> admissible g c x -> admissible g c' x -> (c < c')%Z ->
  c' = (c + 1)%Z /\ x = gnode g c'.
Proof.
  intros H (A1&A2&A3) (B1&B2&B3) L. specialize (A3 ltac:(lia)). specialize (B2 ltac:(lia)).
  destruct (Z.eq_dec c' (c + 1)) as [E|E].
  - split; auto. subst. lra.
  - pose proof (gnode_lt g (c + 1) c' H ltac:(lia) ltac:(lia) ltac:(lia)). lra.
Qed.

Section Glue.
Variables (g : gdim R) (F : R -> R) (P : Z -> R -> R).
Hypothesis Hg : valid_dim g.
Hypothesis HF : forall x, F x = P (cellR g x) x.
Hypothesis HM : forall c, (0 <= c < gsize g - 2)%Z -> P c (gnode g (c + 1)) = P (c + 1)%Z (gnode g (c + 1)).

Lemma glue_any x c : admissible g c x -> F x = P c x.
Proof.
  intros Ha. rewrite HF. pose proof (cellR_admissible g x Hg) as Hc.
  destruct (Z.lt_trichotomy c (cellR g x)) as [L|[E|L]].
  - destruct (admissible_unique g c (cellR g x) x Hg Ha Hc L) as [E Ex].
    rewrite E in *. rewrite Ex. symmetry. apply HM. destruct Ha, Hc. lia.
  - now rewrite E.
  - destruct (admissible_unique g (cellR g x) c x Hg Hc Ha L) as [E Ex].
    rewrite E in *. rewrite Ex at 2 4. rewrite <- HM by (destruct Ha, Hc; lia). now rewrite <- Ex.
Qed.

(** Around any point, two pieces. *)
Lemma glue_local x : exists cl cr eps, 0 < eps /\ admissible g cl x /\ admissible g cr x /\
  (forall y, x - eps <= y <= x -> F y = P cl y) /\ (forall y, x <= y <= x + eps -> F y = P cr y).
Proof.
  pose proof (cellR_admissible g x Hg) as Hc. set (c := cellR g x) in *.
  destruct Hc as (C1&C2&C3).
  assert (L : exists cl e, 0 < e /\ admissible g cl x /\ forall y, x - e <= y <= x -> F y = P cl y).
  { destruct (Z.eq_dec c 0) as [E|E].
    - exists c, 1. split; [lra|]. split; [repeat split; auto; lia|].
      intros y Hy. apply glue_any. split; [lia|]. split; [lia|]. intros. specialize (C3 ltac:(lia)). lra.
    - specialize (C2 ltac:(lia)). destruct (Req_dec (gnode g c) x) as [Ex|Ex].
      + pose proof (gnode_step g (c - 1) Hg ltac:(lia)) as Hs. replace (c - 1 + 1)%Z with c in Hs by lia.
        exists (c - 1)%Z, (gnode g c - gnode g (c - 1)). split; [lra|].
        assert (A : forall y, x - (gnode g c - gnode g (c - 1)) <= y <= x -> admissible g (c - 1) y).
        { intros y Hy. split; [lia|]. split; intros; [lra|]. replace (c - 1 + 1)%Z with c by lia. lra. }
        split; [apply A; lra|]. intros y Hy. apply glue_any. auto.
      + exists c, (x - gnode g c). split; [lra|].
        assert (A : forall y, x - (x - gnode g c) <= y <= x -> admissible g c y).
        { intros y Hy. split; [lia|]. split; intros; [lra|]. specialize (C3 ltac:(lia)). lra. }
        split; [apply A; lra|]. intros y Hy. apply glue_any. auto. }
  assert (Rr : exists cr e, 0 < e /\ admissible g cr x /\ forall y, x <= y <= x + e -> F y = P cr y).
  { destruct (Z.eq_dec c (gsize g - 2)) as [E|E].
    - exists c, 1. split; [lra|]. split; [repeat split; auto; lia|].
      intros y Hy. apply glue_any. split; [lia|]. split; [|lia]. intros. specialize (C2 ltac:(lia)). lra.
    - specialize (C3 ltac:(lia)). destruct (Req_dec (gnode g (c + 1)) x) as [Ex|Ex].
      + pose proof (gnode_step g (c + 1) Hg ltac:(lia)) as Hs.
        exists (c + 1)%Z, (gnode g (c + 1 + 1) - gnode g (c + 1)). split; [lra|].
        assert (A : forall y, x <= y <= x + (gnode g (c + 1 + 1) - gnode g (c + 1)) -> admissible g (c + 1) y).
        { intros y Hy. split; [lia|]. split; intros; lra. }
        split; [apply A; lra|]. intros y Hy. apply glue_any. auto.
      + exists c, (gnode g (c + 1) - x). split; [lra|].
        assert (A : forall y, x <= y <= x + (gnode g (c + 1) - x) -> admissible g c y).
        { intros y Hy. split; [lia|]. split; intros; [|lra]. specialize (C2 ltac:(lia)). lra. }
        split; [apply A; lra|]. intros y Hy. apply glue_any. auto. }
  destruct L as (cl&e1&X1&X2&X3), Rr as (cr&e2&Y1&Y2&Y3).
  exists cl, cr, (Rmin e1 e2). pose proof (Rmin_l e1 e2). pose proof (Rmin_r e1 e2).
  split; [now apply Rmin_glb_lt|]. repeat split; try apply X2; try apply Y2.
  - intros y Hy. apply X3. lra.
  - intros y Hy. apply Y3. lra.
Qed.

Lemma glued_continuous : (forall c x, continuity_pt (P c) x) -> forall x, continuity_pt F x.
Proof.
  intros HP x. destruct (glue_local x) as (cl&cr&e&X1&X2&X3&X4&X5).
  eapply glue_continuous; eauto.
Qed.

Variable D : Z -> R -> R.
Hypothesis HD : forall c x, (0 <= c <= gsize g - 2)%Z -> is_derive (P c) x (D c x).
Hypothesis HMD : forall c, (0 <= c < gsize g - 2)%Z -> D c (gnode g (c + 1)) = D (c + 1)%Z (gnode g (c + 1)).

Lemma glued_D_any x c : admissible g c x -> D c x = D (cellR g x) x.
Proof.
  intros Ha. pose proof (cellR_admissible g x Hg) as Hc.
  destruct (Z.lt_trichotomy c (cellR g x)) as [L|[E|L]].
  - destruct (admissible_unique g c (cellR g x) x Hg Ha Hc L) as [E Ex].
    rewrite E in *. rewrite Ex at 1 2. rewrite HMD by (destruct Ha, Hc; lia). now rewrite <- Ex.
  - now rewrite E.
  - destruct (admissible_unique g (cellR g x) c x Hg Hc Ha L) as [E Ex].
    rewrite E in *. rewrite Ex at 2 4. rewrite HMD by (destruct Ha, Hc; lia). now rewrite <- Ex.
Qed.

Lemma glued_derive x : is_derive F x (D (cellR g x) x).
Proof.
  destruct (glue_local x) as (cl&cr&e&X1&X2&X3&X4&X5).
  apply (glue_derive F (P cl) (P cr) x e); auto.
  - rewrite <- (glued_D_any x cl X2). apply HD, X2.
  - rewrite <- (glued_D_any x cr X3). apply HD, X3.
Qed.
End Glue.

(** ** k = 1 *)
Lemma wR_1_0 lam del : wR 1 0 lam del = [1 - lam; lam].
Proof. reflexivity. Qed.

Lemma csize_1 (g : gdim R) : csize 1 g = gsize g.
Proof. unfold csize. lia. Qed.

Lemma phi1_sum g x f : valid_dim g ->
  zsum (csize 1 g) (fun i => phi 1 0 g x i * f i) =
  (1 - lamR g x) * f (cellR g x) + lamR g x * f (cellR g x + 1)%Z.
Proof.
  intros H. rewrite phi_window by (auto; lia). change (1 + 1)%Z with 2%Z. rewrite zsum_2.
  rewrite wR_1_0. cbn. rewrite Z.add_0_r. reflexivity.
Qed.

Lemma phi1_one g x : valid_dim g -> zsum (csize 1 g) (phi 1 0 g x) = 1.
Proof.
  intros H. rewrite (zsum_ext _ _ (fun i => phi 1 0 g x i * 1)) by (intros; ring).
  rewrite phi1_sum by auto. ring.
Qed.

Lemma phi1_id g x : valid_dim g -> zsum (csize 1 g) (fun i => phi 1 0 g x i * gnode g i) = x.
Proof. intros H. rewrite phi1_sum by auto. rewrite (lamR_eq g x H) at 5. ring. Qed.

Lemma phi1_nonneg g x i : valid_dim g -> in_dim g x -> 0 <= phi 1 0 g x i.
Proof.
  intros H [H1 H2]. pose proof (lam_ge0 g x H H1). pose proof (lam_le1 g x H H2).
  unfold phi. rewrite wR_1_0. destruct (_ && _) eqn:E; [|lra].
  destruct (Z.to_nat (i - cellR g x)) as [|[|[|]]]; cbn; lra.
Qed.

Lemma phi1_node g i j : valid_dim g -> (0 <= j < gsize g)%Z -> (0 <= i < gsize g)%Z ->
  phi 1 0 g (gnode g j) i = if (i =? j)%Z then 1 else 0.
Proof.
  intros H Hj Hi. unfold phi. rewrite wR_1_0.
  destruct (cell_at_node g j H Hj) as [[-> ->]|[-> ->]].
  - destruct ((j <=? i)%Z && (i <=? j + 1)%Z) eqn:E; destruct (Z.eqb_spec i j); try lia.
    + replace (Z.to_nat (i - j)) with 0%nat by lia. cbn. lra.
    + replace (Z.to_nat (i - j)) with 1%nat by lia. cbn. lra.
    + reflexivity.
  - destruct ((j - 1 <=? i)%Z && (i <=? j - 1 + 1)%Z) eqn:E; destruct (Z.eqb_spec i j); try lia.
    + replace (Z.to_nat (i - (j - 1))) with 1%nat by lia. cbn. lra.
    + replace (Z.to_nat (i - (j - 1))) with 0%nat by lia. cbn. lra.
    + reflexivity.
Qed.

(** Affine pieces. *)
Definition lamC (g : gdim R) (c : Z) (x : R) : R := (x - gnode g c) / (gnode g (c + 1) - gnode g c).
Definition piece1 (g : gdim R) (i c : Z) (x : R) : R :=
  if (i =? c)%Z then 1 - lamC g c x else if (i =? c + 1)%Z then lamC g c x else 0.
Definition dpiece1 (g : gdim R) (i c : Z) : R :=
  if (i =? c)%Z then - / (gnode g (c + 1) - gnode g c)
  else if (i =? c + 1)%Z then / (gnode g (c + 1) - gnode g c) else 0.

Lemma phi1_piece g i x : phi 1 0 g x i = piece1 g i (cellR g x) x.
Proof.
  unfold phi, piece1. rewrite wR_1_0. change (lamC g (cellR g x) x) with (lamR g x).
  destruct (Z.eqb_spec i (cellR g x)).
  - replace (_ && _) with true by lia. replace (Z.to_nat (i - cellR g x)) with 0%nat by lia. reflexivity.
  - destruct (Z.eqb_spec i (cellR g x + 1)).
    + replace (_ && _) with true by lia. replace (Z.to_nat (i - cellR g x)) with 1%nat by lia. reflexivity.
    + replace (_ && _) with false by lia. reflexivity.
Qed.

Lemma piece1_match g i c : valid_dim g -> (0 <= c < gsize g - 2)%Z ->
  piece1 g i c (gnode g (c + 1)) = piece1 g i (c + 1) (gnode g (c + 1)).
Proof.
  intros H Hc. pose proof (gnode_step g c H ltac:(lia)). pose proof (gnode_step g (c + 1) H ltac:(lia)).
  unfold piece1, lamC.
  replace ((gnode g (c + 1) - gnode g (c + 1)) / (gnode g (c + 1 + 1) - gnode g (c + 1))) with 0 by (field; lra).
  replace ((gnode g (c + 1) - gnode g c) / (gnode g (c + 1) - gnode g c)) with 1 by (field; lra).
  destruct (Z.eqb_spec i c), (Z.eqb_spec i (c + 1)), (Z.eqb_spec i (c + 1 + 1)); try lia; lra.
Qed.

Lemma piece1_derive g i c x : is_derive (piece1 g i c) x (dpiece1 g i c).
Proof.
  unfold piece1, dpiece1, lamC. destruct (i =? c)%Z; [|destruct (i =? c + 1)%Z].
  - auto_derive; auto. unfold Rdiv. ring.
  - auto_derive; auto. unfold Rdiv. ring.
  - auto_derive; auto.
Qed.

Lemma is_derive_continuity f x l : is_derive f x l -> continuity_pt f x.
Proof. intros H. apply is_derive_Reals in H. apply derivable_continuous_pt. exists l. exact H. Qed.

Lemma phi1_continuous g i x : valid_dim g -> continuity_pt (fun x => phi 1 0 g x i) x.
Proof.
  intros H. apply (glued_continuous g (fun x => phi 1 0 g x i) (piece1 g i) H).
  - intros; apply phi1_piece.
  - intros; now apply piece1_match.
  - intros. eapply is_derive_continuity. apply piece1_derive.
Qed.

(** Outside of the domain the first/last piece applies; inside as well near the border. *)
Lemma phi1_any g i c x : valid_dim g -> admissible g c x -> phi 1 0 g x i = piece1 g i c x.
Proof.
  intros H Ha. apply (glue_any g (fun x => phi 1 0 g x i) (piece1 g i) H); auto.
  - intros; apply phi1_piece.
  - intros; now apply piece1_match.
Qed.

Lemma piece1_affine g i c x y : piece1 g i c x = piece1 g i c y + (x - y) * dpiece1 g i c.
Proof.
  unfold piece1, dpiece1, lamC. destruct (i =? c)%Z; [|destruct (i =? c + 1)%Z]; unfold Rdiv; ring.
Qed.

(** ** k = 3 *)
Definition bsp (j : Z) (t : R) : R :=
  match j with
  | 0%Z => (1 - t) * (1 - t) * (1 - t) / 6
  | 1%Z => (3 * t * t * t - 6 * t * t + 4) / 6
  | 2%Z => (-3 * t * t * t + 3 * t * t + 3 * t + 1) / 6
  | 3%Z => t * t * t / 6
  | _ => 0
  end.
Definition dbsp (j : Z) (t : R) : R :=
  match j with
  | 0%Z => - ((1 - t) * (1 - t)) / 2
  | 1%Z => (9 * t * t - 12 * t) / 6
  | 2%Z => (-9 * t * t + 6 * t + 3) / 6
  | 3%Z => t * t / 2
  | _ => 0
  end.
Definition ddbsp (j : Z) (t : R) : R :=
  match j with
  | 0%Z => 1 - t
  | 1%Z => 3 * t - 2
  | 2%Z => -3 * t + 1
  | 3%Z => t
  | _ => 0
  end.
Definition ebsp (j : Z) (t : R) : R :=
  if Rlt_bool t 0 then bsp j 0 + dbsp j 0 * t
  else if Rlt_bool 1 t then bsp j 1 + dbsp j 1 * (t - 1) else bsp j t.
Definition edbsp (j : Z) (t : R) : R :=
  if Rlt_bool t 0 then dbsp j 0 else if Rlt_bool 1 t then dbsp j 1 else dbsp j t.

Ltac case4 j Hj := assert (j = 0 \/ j = 1 \/ j = 2 \/ j = 3)%Z as [?|[?|[?|?]]] by lia; subst j.

Lemma wR_3_0 lam del j : (0 <= j <= 3)%Z -> nth (Z.to_nat j) (wR 3 0 lam del) 0 = ebsp j lam.
Proof.
  intros Hj. unfold ebsp, wR. cbn -[nth blend_cubic_j]. unfold blend_cubic_j. cbn -[nth].
  case4 j Hj; try change (Z.to_nat 1) with 1%nat; try change (Z.to_nat 2) with 2%nat;
    try change (Z.to_nat 3) with 3%nat; cbn; destruct (Rlt_bool lam 0), (Rlt_bool 1 lam); cbn; field.
Qed.
Lemma wR_3_1 lam del j : (0 <= j <= 3)%Z -> nth (Z.to_nat j) (wR 3 1 lam del) 0 = edbsp j lam * del.
Proof.
  intros Hj. unfold edbsp, wR. cbn -[nth blend_cubic_j]. unfold blend_cubic_j. cbn -[nth].
  case4 j Hj; try change (Z.to_nat 1) with 1%nat; try change (Z.to_nat 2) with 2%nat;
    try change (Z.to_nat 3) with 3%nat; cbn; destruct (Rlt_bool lam 0), (Rlt_bool 1 lam); cbn; field.
Qed.

Lemma bsp_derive j t : is_derive (bsp j) t (dbsp j t).
Proof.
  unfold bsp, dbsp, ddbsp. destruct j as [|[[]|[]|]|]; cbn -[Rmult Rplus Rminus Rdiv]; auto_derive; auto; try field.
Qed.
Lemma dbsp_derive j t : is_derive (dbsp j) t (ddbsp j t).
Proof.
  unfold bsp, dbsp, ddbsp. destruct j as [|[[]|[]|]|]; cbn -[Rmult Rplus Rminus Rdiv]; auto_derive; auto; try field.
Qed.

Lemma ebsp_derive j t : is_derive (ebsp j) t (edbsp j t).
Proof.
  assert (L0 : forall s, is_derive (fun t => bsp j 0 + dbsp j 0 * t) s (dbsp j 0)) by (intros; auto_derive; auto; ring).
  assert (L1 : forall s, is_derive (fun t => bsp j 1 + dbsp j 1 * (t - 1)) s (dbsp j 1)) by (intros; auto_derive; auto; ring).
  destruct (Rlt_le_dec t 0) as [A|A]; [|destruct (Req_dec t 0) as [A0|A0]; [|destruct (Rlt_le_dec t 1) as [B|B]; [|destruct (Req_dec t 1) as [B0|B0]]]].
  - replace (edbsp j t) with (dbsp j 0) by (unfold edbsp; now rewrite Rlt_bool_true).
    apply (glue_derive _ (fun t => bsp j 0 + dbsp j 0 * t) (fun t => bsp j 0 + dbsp j 0 * t) t (- t / 2)); auto; try lra;
      intros y Hy; unfold ebsp; rewrite Rlt_bool_true by lra; reflexivity.
  - subst t. replace (edbsp j 0) with (dbsp j 0).
    2:{ unfold edbsp. rewrite !Rlt_bool_false by lra. reflexivity. }
    apply (glue_derive _ (fun t => bsp j 0 + dbsp j 0 * t) (bsp j) 0 1); auto; try lra; try apply bsp_derive.
    + intros y Hy. unfold ebsp. destruct (Rlt_bool_spec y 0); auto. rewrite Rlt_bool_false by lra.
      replace y with 0 by lra. ring.
    + intros y Hy. unfold ebsp. rewrite !Rlt_bool_false by lra. reflexivity.
  - replace (edbsp j t) with (dbsp j t) by (unfold edbsp; rewrite !Rlt_bool_false by lra; auto).
    apply (glue_derive _ (bsp j) (bsp j) t (Rmin (t / 2) ((1 - t) / 2))); try apply bsp_derive.
    + apply Rmin_glb_lt; lra.
    + pose proof (Rmin_l (t / 2) ((1 - t) / 2)). intros y Hy. unfold ebsp. rewrite !Rlt_bool_false by lra. reflexivity.
    + pose proof (Rmin_r (t / 2) ((1 - t) / 2)). intros y Hy. unfold ebsp. rewrite !Rlt_bool_false by lra. reflexivity.
  - subst t. replace (edbsp j 1) with (dbsp j 1).
    2:{ unfold edbsp. rewrite !Rlt_bool_false by lra. reflexivity. }
    apply (glue_derive _ (bsp j) (fun t => bsp j 1 + dbsp j 1 * (t - 1)) 1 1); auto; try lra; try apply bsp_derive.
    + intros y Hy. unfold ebsp. rewrite !Rlt_bool_false by lra. reflexivity.
    + intros y Hy. unfold ebsp. rewrite Rlt_bool_false by lra. destruct (Rlt_bool_spec 1 y); auto.
      replace y with 1 by lra. ring.
  - replace (edbsp j t) with (dbsp j 1) by (unfold edbsp; rewrite Rlt_bool_false, Rlt_bool_true by lra; auto).
    apply (glue_derive _ (fun t => bsp j 1 + dbsp j 1 * (t - 1)) (fun t => bsp j 1 + dbsp j 1 * (t - 1)) t ((t - 1) / 2)); auto; try lra;
      intros y Hy; unfold ebsp; rewrite Rlt_bool_false, Rlt_bool_true by lra; reflexivity.
Qed.

(** Pieces in the cells. *)
Definition piece3 (g : gdim R) (i c : Z) (x : R) : R :=
  if ((c <=? i) && (i <=? c + 3))%Z then ebsp (i - c) (lamC g c x) else 0.
Definition dpiece3 (g : gdim R) (i c : Z) (x : R) : R :=
  if ((c <=? i) && (i <=? c + 3))%Z then edbsp (i - c) (lamC g c x) * / (gnode g (c + 1) - gnode g c) else 0.

Lemma phi3_piece g i x : phi 3 0 g x i = piece3 g i (cellR g x) x.
Proof.
  unfold phi, piece3. change (lamC g (cellR g x) x) with (lamR g x).
  destruct (_ && _) eqn:E; auto. apply wR_3_0. lia.
Qed.

Lemma unif_gap a b n c : valid_dim (Unif a b n) ->
  / (gnode (Unif a b n) (c + 1) - gnode (Unif a b n) c) = (IZR n - 1) / (b - a).
Proof.
  intros H. pose proof (gsize_IZR _ H). destruct H as [_ H]. cbn in *. rewrite plus_IZR. field. repeat split; try lra.
Qed.

Lemma phi3_dpiece a b n i x : valid_dim (Unif a b n) ->
  phi 3 1 (Unif a b n) x i = dpiece3 (Unif a b n) i (cellR (Unif a b n) x) x.
Proof.
  intros H. unfold phi, dpiece3. rewrite unif_gap by auto.
  change (lamC (Unif a b n) (cellR (Unif a b n) x) x) with (lamR (Unif a b n) x).
  destruct (_ && _) eqn:E; auto. apply wR_3_1. lia.
Qed.

Lemma lamC_self g c : lamC g c (gnode g c) = 0.
Proof. unfold lamC, Rdiv. ring. Qed.
Lemma lamC_next g c : valid_dim g -> (0 <= c < gsize g - 1)%Z -> lamC g c (gnode g (c + 1)) = 1.
Proof. intros H Hc. pose proof (gnode_step g c H Hc). unfold lamC. field. lra. Qed.

Lemma ebsp_0 j : ebsp j 0 = bsp j 0.
Proof. unfold ebsp. rewrite !Rlt_bool_false by lra. reflexivity. Qed.
Lemma ebsp_1 j : ebsp j 1 = bsp j 1.
Proof. unfold ebsp. rewrite !Rlt_bool_false by lra. reflexivity. Qed.
Lemma edbsp_0 j : edbsp j 0 = dbsp j 0.
Proof. unfold edbsp. rewrite !Rlt_bool_false by lra. reflexivity. Qed.
Lemma edbsp_1 j : edbsp j 1 = dbsp j 1.
Proof. unfold edbsp. rewrite !Rlt_bool_false by lra. reflexivity. Qed.

Lemma piece3_match g i c : valid_dim g -> (0 <= c < gsize g - 2)%Z ->
  piece3 g i c (gnode g (c + 1)) = piece3 g i (c + 1) (gnode g (c + 1)).
Proof.
  intros H Hc. unfold piece3. rewrite lamC_self, lamC_next, ebsp_0, ebsp_1 by (auto; lia).
  destruct ((c <=? i) && (i <=? c + 3))%Z eqn:E1, ((c + 1 <=? i) && (i <=? c + 1 + 3))%Z eqn:E2; auto.
  - assert (i - c = 1 \/ i - c = 2 \/ i - c = 3)%Z as [E|[E|E]] by lia; rewrite E;
      [replace (i - (c + 1))%Z with 0%Z by lia|replace (i - (c + 1))%Z with 1%Z by lia|replace (i - (c + 1))%Z with 2%Z by lia]; cbn; lra.
  - replace (i - c)%Z with 0%Z by lia. cbn; lra.
  - replace (i - (c + 1))%Z with 3%Z by lia. cbn; lra.
Qed.
Lemma dpiece3_match a b n i c : let g := Unif a b n in valid_dim g -> (0 <= c < gsize g - 2)%Z ->
  dpiece3 g i c (gnode g (c + 1)) = dpiece3 g i (c + 1) (gnode g (c + 1)).
Proof.
  intros g H Hc. unfold dpiece3. rewrite lamC_self, lamC_next, edbsp_0, edbsp_1 by (auto; lia).
  unfold g. rewrite !unif_gap by auto. fold g.
  destruct ((c <=? i) && (i <=? c + 3))%Z eqn:E1, ((c + 1 <=? i) && (i <=? c + 1 + 3))%Z eqn:E2; auto.
  - f_equal. assert (i - c = 1 \/ i - c = 2 \/ i - c = 3)%Z as [E|[E|E]] by lia; rewrite E;
      [replace (i - (c + 1))%Z with 0%Z by lia|replace (i - (c + 1))%Z with 1%Z by lia|replace (i - (c + 1))%Z with 2%Z by lia]; cbn; lra.
  - replace (i - c)%Z with 0%Z by lia. cbn; lra.
  - replace (i - (c + 1))%Z with 3%Z by lia. cbn; lra.
Qed.
Lemma piece3_derive g i c x : is_derive (piece3 g i c) x (dpiece3 g i c x).
Proof.
  unfold piece3, dpiece3. destruct (_ && _).
  - rewrite Rmult_comm. apply (is_derive_comp (ebsp (i - c)) (lamC g c)).
    + apply ebsp_derive.
    + unfold lamC. auto_derive; auto. unfold Rdiv. ring.
  - auto_derive; auto.
Qed.

Lemma phi3_derive a b n i x : let g := Unif a b n in valid_dim g ->
  is_derive (fun x => phi 3 0 g x i) x (phi 3 1 g x i).
Proof.
  intros g H. unfold g. rewrite phi3_dpiece by auto. fold g.
  apply (glued_derive g (fun x => phi 3 0 g x i) (piece3 g i) H) with (D := dpiece3 g i).
  - intros; apply phi3_piece.
  - intros; now apply piece3_match.
  - intros; apply piece3_derive.
  - intros. now apply dpiece3_match.
Qed.

Lemma phi3_continuous g i x : valid_dim g -> continuity_pt (fun x => phi 3 0 g x i) x.
Proof.
  intros H. apply (glued_continuous g (fun x => phi 3 0 g x i) (piece3 g i) H).
  - intros; apply phi3_piece.
  - intros; now apply piece3_match.
  - intros. eapply is_derive_continuity. apply piece3_derive.
Qed.

Lemma phi3_any g i c x : valid_dim g -> admissible g c x -> phi 3 0 g x i = piece3 g i c x.
Proof.
  intros H Ha. apply (glue_any g (fun x => phi 3 0 g x i) (piece3 g i) H); auto.
  - intros; apply phi3_piece.
  - intros; now apply piece3_match.
Qed.

Lemma csize_3 (g : gdim R) : csize 3 g = (gsize g + 2)%Z.
Proof. unfold csize. lia. Qed.

Lemma phi3_sum g x f : valid_dim g ->
  zsum (csize 3 g) (fun i => phi 3 0 g x i * f i) =
  zsum 4 (fun j => ebsp j (lamR g x) * f (cellR g x + j)%Z).
Proof.
  intros H. rewrite phi_window by (auto; lia). change (3 + 1)%Z with 4%Z.
  apply zsum_ext. intros j Hj. rewrite wR_3_0 by lia. reflexivity.
Qed.

Lemma ebsp_sum t : ebsp 0 t + ebsp 1 t + ebsp 2 t + ebsp 3 t = 1.
Proof. unfold ebsp. destruct (Rlt_bool t 0), (Rlt_bool 1 t); cbn; field. Qed.
Lemma ebsp_mom t : ebsp 0 t * (-1) + ebsp 1 t * 0 + ebsp 2 t * 1 + ebsp 3 t * 2 = t.
Proof. unfold ebsp. destruct (Rlt_bool t 0), (Rlt_bool 1 t); cbn; field. Qed.

Lemma phi3_one g x : valid_dim g -> zsum (csize 3 g) (phi 3 0 g x) = 1.
Proof.
  intros H. rewrite (zsum_ext _ _ (fun i => phi 3 0 g x i * 1)) by (intros; ring).
  rewrite phi3_sum by auto. rewrite zsum_4. rewrite !Rmult_1_r. apply ebsp_sum.
Qed.

Lemma lamR_unif a b n x : let g := Unif a b n in valid_dim g ->
  x = a + (IZR (cellR g x) + lamR g x) * ((b - a) / (IZR n - 1)).
Proof.
  intros g H. etransitivity; [exact (lamR_eq g x H)|].
  change (gnode g (cellR g x + 1)) with (a + IZR (cellR g x + 1) * ((b - a) / (IZR n - 1))).
  change (gnode g (cellR g x)) with (a + IZR (cellR g x) * ((b - a) / (IZR n - 1))).
  rewrite plus_IZR. ring.
Qed.

(** Coefficient [i] belongs to node [i-1]. *)
Lemma phi3_id a b n x : let g := Unif a b n in valid_dim g ->
  zsum (csize 3 g) (fun i => phi 3 0 g x i * gnode g (i - 1)) = x.
Proof.
  intros g H. rewrite phi3_sum by auto. rewrite zsum_4. transitivity (a + (IZR (cellR g x) + lamR g x) * ((b - a) / (IZR n - 1))).
  2:{ symmetry. exact (lamR_unif a b n x H). }
  assert (N : forall z, gnode g z = a + IZR z * ((b - a) / (IZR n - 1))) by reflexivity.
  rewrite !N, !minus_IZR, !plus_IZR.
  set (t := lamR g x). set (h := (b - a) / (IZR n - 1)). set (c := IZR (cellR g x)).
  replace (a + (c + t) * h) with ((a + c * h) * 1 + h * t) by ring.
  pose proof (ebsp_sum t) as E1. pose proof (ebsp_mom t) as E2.
  transitivity ((a + c * h) * (ebsp 0 t + ebsp 1 t + ebsp 2 t + ebsp 3 t)
                + h * (ebsp 0 t * -1 + ebsp 1 t * 0 + ebsp 2 t * 1 + ebsp 3 t * 2)); [ring|].
  rewrite E1, E2. reflexivity.
Qed.

Lemma phi3_node g i j : valid_dim g -> (0 <= j < gsize g)%Z ->
  phi 3 0 g (gnode g j) i =
  if (i =? j)%Z then 1 / 6 else if (i =? j + 1)%Z then 4 / 6 else if (i =? j + 2)%Z then 1 / 6 else 0.
Proof.
  intros H Hj. rewrite phi3_piece. unfold piece3.
  change (lamC g (cellR g (gnode g j)) (gnode g j)) with (lamR g (gnode g j)).
  destruct (cell_at_node g j H Hj) as [[-> ->]|[-> ->]].
  - rewrite ebsp_0. destruct (_ && _) eqn:E.
    + assert (i - j = 0 \/ i - j = 1 \/ i - j = 2 \/ i - j = 3)%Z as [X|[X|[X|X]]] by lia; rewrite X;
        destruct (Z.eqb_spec i j), (Z.eqb_spec i (j + 1)), (Z.eqb_spec i (j + 2)); try lia; cbn; lra.
    + destruct (Z.eqb_spec i j), (Z.eqb_spec i (j + 1)), (Z.eqb_spec i (j + 2)); try lia; lra.
  - rewrite ebsp_1. destruct (_ && _) eqn:E.
    + assert (i - (j - 1) = 0 \/ i - (j - 1) = 1 \/ i - (j - 1) = 2 \/ i - (j - 1) = 3)%Z as [X|[X|[X|X]]] by lia; rewrite X;
        destruct (Z.eqb_spec i j), (Z.eqb_spec i (j + 1)), (Z.eqb_spec i (j + 2)); try lia; cbn; lra.
    + destruct (Z.eqb_spec i j), (Z.eqb_spec i (j + 1)), (Z.eqb_spec i (j + 2)); try lia; lra.
Qed.
