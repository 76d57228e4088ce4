(** Derivatives of B-splines; cubic B-splines on uniform knots and eval_cubic. *)
From Coq Require Import ZArith List Bool Reals Lia Lra Psatz ZifyBool.
From Coquelicot Require Import Coquelicot.
From Flocq Require Import Core.Raux.
From Verif Require Import Base BaseFacts SplineModel Spec EvalR RSum WeightsR EvalExact EvalRProps BasisModel SpecBasis BasisProps.
Import ListNotations.
Open Scope R_scope.

Lemma tpow_derive p c x : (1 <= p)%nat \/ x <> c ->
  is_derive (fun y => tpow (S p) (c - y)) x (- INR (S p) * tpow p (c - x)).
Proof.
  intros H.
  assert (DP : is_derive (fun y => (c - y) ^ S p) x (- INR (S p) * (c - x) ^ p)).
  { auto_derive; auto. cbn [Nat.pred]. unfold Rminus. destruct p; [cbn; ring|]. rewrite (S_INR (S p)). generalize ((c + - x) ^ S p). intros; ring. }
  assert (D0 : is_derive (fun _ : R => 0) x 0) by (auto_derive; auto).
  destruct (Rtotal_order x c) as [L|[E|L]].
  - replace (tpow p (c - x)) with ((c - x) ^ p) by (unfold tpow; destruct (Rlt_dec 0 (c - x)); lra).
    eapply is_derive_ext_loc; [|exact DP].
    exists (mkposreal _ (Rlt_Rminus _ _ L)). intros y Hy. apply Rabs_lt_between' in Hy. cbn in Hy.
    unfold tpow. destruct (Rlt_dec 0 (c - y)); auto. lra.
  - subst c. destruct H as [H|H]; [|lra].
    replace (- INR (S p) * tpow p (x - x)) with 0 by (unfold tpow; destruct (Rlt_dec 0 (x - x)); lra).
    apply (glue_derive _ (fun y => (x - y) ^ S p) (fun _ => 0) x 1 0); try lra.
    + intros y Hy. unfold tpow. destruct (Rlt_dec 0 (x - y)); auto.
      replace (x - y) with 0 by lra. cbn. ring.
    + intros y Hy. unfold tpow. destruct (Rlt_dec 0 (x - y)); auto; lra.
    + replace 0 with (- INR (S p) * (x - x) ^ p) at 1; auto. rewrite Rminus_eq_0. destruct p; [lia|]. cbn [pow]. ring.
    + exact D0.
  - replace (- INR (S p) * tpow p (c - x)) with 0 by (unfold tpow; destruct (Rlt_dec 0 (c - x)); lra).
    eapply is_derive_ext_loc; [|exact D0].
    exists (mkposreal _ (Rlt_Rminus _ _ L)). intros y Hy. apply Rabs_lt_between' in Hy. cbn in Hy.
    unfold tpow. destruct (Rlt_dec 0 (c - y)); auto. lra.
Qed.

Lemma zsum_is_derive n (f : Z -> R -> R) (f' : Z -> R) x :
  (forall i, (0 <= i < n)%Z -> is_derive (f i) x (f' i)) -> is_derive (fun y => zsum n (fun i => f i y)) x (zsum n f').
Proof.
  destruct (Z_lt_le_dec n 0) as [L|L].
  - intros _. rewrite zsum_0 by lia. apply (is_derive_ext (fun _ => 0)). intros. now rewrite zsum_0 by lia. auto_derive; auto.
  - revert n L. apply (zsum_ind (fun n => (forall i, (0 <= i < n)%Z -> is_derive (f i) x (f' i)) -> is_derive (fun y => zsum n (fun i => f i y)) x (zsum n f'))).
    + intros _. rewrite zsum_0 by lia. apply (is_derive_ext (fun _ => 0)). intros. now rewrite zsum_0 by lia. auto_derive; auto.
    + intros n Hn IH H. rewrite zsum_S by lia.
      apply (is_derive_ext (fun y => zsum n (fun i => f i y) + f n y)). intros. now rewrite zsum_S by lia.
      apply (is_derive_plus (fun y => zsum n (fun i => f i y)) (f n)); [apply IH|apply H]; intros; try apply H; lia.
Qed.

Lemma bspline_derive U lo hi p i x : incr U lo hi -> (lo <= i)%Z -> (i + Z.of_nat (S p) + 1 <= hi)%Z ->
  (1 <= p)%nat \/ (forall m, (i <= m <= i + Z.of_nat (S p) + 1)%Z -> x <> U m) ->
  is_derive (bspline U (S p) i) x
    (INR (S p) * (bspline U p i x / (U (i + Z.of_nat p + 1)%Z - U i)
                  - bspline U p (i + 1) x / (U (i + Z.of_nat p + 2)%Z - U (i + 1)%Z))).
Proof.
  intros H Hl Hh Hx.
  pose proof (incr_lt U lo hi i (i + Z.of_nat p + 1) H ltac:(lia) ltac:(lia) ltac:(lia)).
  pose proof (incr_lt U lo hi (i + 1) (i + Z.of_nat p + 2) H ltac:(lia) ltac:(lia) ltac:(lia)).
  pose proof (incr_lt U lo hi i (i + Z.of_nat p + 2) H ltac:(lia) ltac:(lia) ltac:(lia)).
  assert (E : INR (S p) * (bspline U p i x / (U (i + Z.of_nat p + 1)%Z - U i)
                  - bspline U p (i + 1) x / (U (i + Z.of_nat p + 2)%Z - U (i + 1)%Z)) =
     (U (i + Z.of_nat (S p) + 1)%Z - U i) * dd U (fun t => - INR (S p) * tpow p (t - x)) i (S (S p))).
  { rewrite !bspline_dd. replace (i + 1 + Z.of_nat p + 1)%Z with (i + Z.of_nat p + 2)%Z by lia.
    replace (i + Z.of_nat (S p) + 1)%Z with (i + Z.of_nat p + 2)%Z by lia.
    set (e := U i) in *. set (w := U (i + Z.of_nat p + 2)%Z) in *.
    rewrite (dd_step U lo hi _ (fun t => tpow p (t - x)) (INR (S p) / (w - e)) (- INR (S p) / (w - e)) i (S p) H) by
      (try lia; intros m Hm; fold e; replace (i + Z.of_nat (S p) + 1)%Z with (i + Z.of_nat p + 2)%Z by lia; fold w; field; lra).
    field. lra. }
  rewrite E. apply (is_derive_ext (fun y => (U (i + Z.of_nat (S p) + 1)%Z - U i) * dd U (fun t => tpow (S p) (t - y)) i (S (S p)))).
  { intros y. now rewrite bspline_dd. }
  apply is_derive_scal. unfold dd. apply (zsum_is_derive _ (fun m y => tpow (S p) (U (i + m)%Z - y) / denom U i m (S (S (S p))))).
  intros m Hm. unfold Rdiv. apply (is_derive_ext (fun y => / denom U i m (S (S (S p))) * tpow (S p) (U (i + m)%Z - y))).
  { intros y. apply Rmult_comm. }
  rewrite Rmult_comm. apply is_derive_scal. apply tpow_derive. destruct Hx as [Hx|Hx]; auto. right. apply Hx. lia.
Qed.

(** ** Cubic B-splines on uniform knots *)
Definition Ua (a h : R) (i : Z) : R := a + IZR (i - 3) * h.

Lemma Ua_incr a h lo hi : 0 < h -> incr (Ua a h) lo hi.
Proof. intros Hh i _. unfold Ua. replace (i + 1 - 3)%Z with (i - 3 + 1)%Z by lia. rewrite plus_IZR. lra. Qed.

Lemma Br_ext U V p : forall i x, (forall j, (i <= j <= i + Z.of_nat p + 1)%Z -> U j = V j) -> Br U p i x = Br V p i x.
Proof.
  induction p as [|p IH]; intros i x H; cbn [Br].
  - rewrite !H by lia. reflexivity.
  - rewrite !H by lia. rewrite (IH i), (IH (i + 1)%Z); auto; intros; apply H; lia.
Qed.

Lemma Br3_uniform a h c lam i : 0 < h -> 0 <= lam < 1 ->
  Br (Ua a h) 3 i (a + (IZR c + lam) * h) =
  if ((c <=? i) && (i <=? c + 3))%Z then bsp (i - c) lam else 0.
Proof.
  intros Hh Hl. set (x := a + (IZR c + lam) * h).
  assert (L : forall j m, (j = c + m)%Z -> (m <= 3)%Z -> (if Rlt_dec x (Ua a h j) then true else false) = false).
  { intros j m -> Hm. destruct (Rlt_dec x (Ua a h (c + m))) as [G|]; auto. exfalso. unfold x, Ua in G.
    replace (c + m - 3)%Z with (c + (m - 3))%Z in G by lia. rewrite plus_IZR in G.
    assert (IZR (m - 3) <= 0) by (apply (IZR_le _ 0); lia). nra. }
  assert (Rr : forall j m, (j = c + m)%Z -> (4 <= m)%Z -> (if Rlt_dec x (Ua a h j) then true else false) = true).
  { intros j m -> Hm. destruct (Rlt_dec x (Ua a h (c + m))) as [G|G]; auto. exfalso. apply G. unfold x, Ua.
    replace (c + m - 3)%Z with (c + (m - 3))%Z by lia. rewrite plus_IZR.
    assert (1 <= IZR (m - 3)) by (apply (IZR_le 1); lia). nra. }
  assert (Z0 : forall j, Br (Ua a h) 0 j x = if (j =? c + 3)%Z then 1 else 0).
  { intros j. cbn [Br]. destruct (Z.eqb_spec j (c + 3)).
    - subst j. pose proof (L (c + 3)%Z 3%Z ltac:(lia) ltac:(lia)). pose proof (Rr (c + 3 + 1)%Z 4%Z ltac:(lia) ltac:(lia)).
      destruct (Rlt_dec x (Ua a h (c + 3))); [discriminate|]. destruct (Rlt_dec x (Ua a h (c + 3 + 1))); [auto|discriminate].
    - destruct (Z_lt_le_dec j (c + 3)).
      + pose proof (L j (j - c)%Z ltac:(lia) ltac:(lia)). pose proof (L (j + 1)%Z (j + 1 - c)%Z ltac:(lia) ltac:(lia)).
        destruct (Rlt_dec x (Ua a h j)); auto. destruct (Rlt_dec x (Ua a h (j + 1))); [discriminate|auto].
      + pose proof (Rr j (j - c)%Z ltac:(lia) ltac:(lia)). destruct (Rlt_dec x (Ua a h j)); [auto|discriminate]. }
  destruct ((c <=? i) && (i <=? c + 3))%Z eqn:E.
  - assert (C : exists j, (0 <= j <= 3)%Z /\ i = (c + j)%Z) by (exists (i - c)%Z; lia).
    destruct C as [j [Hj ->]]. replace (c + j - c)%Z with j by lia.
    change (Br (Ua a h) 3 (c + j) x) with (
      let B0 := Br (Ua a h) 0 in
      let B1 i := (x - Ua a h i) / (Ua a h (i + 1) - Ua a h i) * B0 i x + (Ua a h (i + 1 + 1) - x) / (Ua a h (i + 1 + 1) - Ua a h (i + 1)) * B0 (i + 1)%Z x in
      let B2 i := (x - Ua a h i) / (Ua a h (i + 2) - Ua a h i) * B1 i + (Ua a h (i + 2 + 1) - x) / (Ua a h (i + 2 + 1) - Ua a h (i + 1)) * B1 (i + 1)%Z in
      (x - Ua a h (c + j)) / (Ua a h (c + j + 3) - Ua a h (c + j)) * B2 (c + j)%Z + (Ua a h (c + j + 3 + 1) - x) / (Ua a h (c + j + 3 + 1) - Ua a h (c + j + 1)) * B2 (c + j + 1)%Z).
    cbn beta zeta. rewrite !Z0. unfold Ua, x.
    case4 j Hj;
      repeat match goal with |- context [if (?u =? ?v)%Z then _ else _] =>
        first [replace (u =? v)%Z with true by lia | replace (u =? v)%Z with false by lia] end;
      rewrite ?minus_IZR, ?plus_IZR; unfold bsp; field; lra.
  - apply (Br_outside (Ua a h) i (i + 4)); try lia; [now apply Ua_incr|]. unfold x, Ua.
    replace (i + Z.of_nat 3 + 1 - 3)%Z with (i + 1)%Z by lia.
    destruct (Z_lt_le_dec i c).
    + right. assert (IZR (i + 1) <= IZR c) by (apply IZR_le; lia). nra.
    + left. assert (IZR (c + 1) <= IZR (i - 3)) by (apply IZR_le; lia). rewrite plus_IZR in *. nra.
Qed.

Lemma cubic_knots_len a b n : (0 <= n)%Z -> zlen (cubic_knots a b n) = (n + 6)%Z.
Proof. intros H. unfold cubic_knots, zlen. rewrite map_length. unfold zrange. rewrite map_length, seq_length. lia. Qed.
Lemma cubic_knots_at a b n i : (0 <= i < n + 6)%Z -> knot (cubic_knots a b n) i = Ua a ((b - a) / (IZR n - 1)) i.
Proof.
  intros H. unfold knot, cubic_knots.
  set (f := fun i => a + IZR (i - 3) * ((b - a) / (IZR n - 1))).
  rewrite (nth_indep _ 0 (f 0%Z)).
  2: { rewrite map_length. unfold zrange. rewrite map_length, seq_length. lia. }
  rewrite map_nth. unfold zrange. change 0%Z with (Z.of_nat 0) at 1. rewrite map_nth, seq_nth by lia. unfold f, Ua.
  f_equal. f_equal. f_equal. lia.
Qed.
Lemma cubic_knots_increasing a b n : valid_dim (Unif a b n) -> increasing (cubic_knots a b n).
Proof.
  intros H i Hi Hl. pose proof (unif_step _ _ _ H). destruct H as [Hn _]. cbn in Hn.
  rewrite cubic_knots_len in Hl by lia. rewrite !cubic_knots_at by lia. apply (Ua_incr a _ 0 (n + 6)); auto. lia.
Qed.

Lemma phi_bspline a b n x i : valid_dim (Unif a b n) -> in_dim (Unif a b n) x -> (0 <= i < n + 2)%Z ->
  phi 3 0 (Unif a b n) x i = bspline (knot (cubic_knots a b n)) 3 i x.
Proof.
  intros Hv Hx Hi. pose proof (unif_step _ _ _ Hv) as Hh. pose proof (gsize_IZR _ Hv) as Hn1. cbn in Hn1.
  assert (Hn : (2 <= n)%Z) by (destruct Hv as [Hn _]; exact Hn).
  rewrite <- (Br_bspline (knot (cubic_knots a b n)) 0 (n + 5)) by
    (try lia; intros j Hj; apply cubic_knots_increasing; auto; try lia; rewrite cubic_knots_len; lia).
  set (h := (b - a) / (IZR n - 1)) in *.
  rewrite (Br_ext _ (Ua a h)) by (intros j Hj; apply cubic_knots_at; lia).
  pose proof (lam_ge0 _ x Hv (proj1 Hx)) as L0. pose proof (lam_le1 _ x Hv (proj2 Hx)) as L1.
  rewrite phi3_piece. unfold piece3. change (lamC (Unif a b n) (cellR (Unif a b n) x) x) with (lamR (Unif a b n) x).
  assert (Ex : x = a + (IZR (cellR (Unif a b n) x) + lamR (Unif a b n) x) * h).
  { rewrite (lamR_eq (Unif a b n) x Hv) at 1. cbn [gnode]. fold h. rewrite plus_IZR. ring. }
  set (c := cellR (Unif a b n) x) in *. set (lam := lamR (Unif a b n) x) in *.
  assert (EB : ebsp (i - c) lam = bsp (i - c) lam).
  { unfold ebsp. rewrite !Rlt_bool_false by lra. reflexivity. }
  destruct (Rlt_dec lam 1) as [L|L].
  - rewrite Ex at 1. rewrite Br3_uniform by lra. destruct (_ && _); auto.
  - assert (E1 : lam = 1) by lra.
    replace x with (a + (IZR (c + 1) + 0) * h) at 1 by (rewrite Ex, E1, plus_IZR; ring).
    rewrite Br3_uniform by lra. rewrite EB, E1. clear EB.
    pose proof (cellR_range _ x Hv) as Hc. fold c in Hc. cbn in Hc.
    destruct ((c <=? i) && (i <=? c + 3))%Z eqn:E2, ((c + 1 <=? i) && (i <=? c + 1 + 3))%Z eqn:E3; auto.
    + assert (exists j, (0 <= j <= 3)%Z /\ i = (c + j)%Z) as [j [Hj ->]] by (exists (i - c)%Z; lia).
      replace (c + j - c)%Z with j by lia. replace (c + j - (c + 1))%Z with (j - 1)%Z by lia.
      case4 j Hj; try lia; cbn [Z.sub Z.add Z.opp Z.pos_sub Pos.pred_double bsp]; field.
    + replace i with c by lia. rewrite Z.sub_diag. cbn [bsp]. field.
    + replace i with (c + 4)%Z by lia. replace (c + 4 - (c + 1))%Z with 3%Z by lia. cbn [bsp]. field.
Qed.

Lemma VR3_tensor grid c : forall pt, valid_grid (unif_grid grid) -> in_domain (unif_grid grid) pt ->
  VR 3 (unif_grid grid) (zeros (unif_grid grid)) c pt = tensor_spline grid pt c.
Proof.
  revert c. induction grid as [|[[a b] n] grid IH]; intros c pt Hv Hd; inversion Hd; subst; [reflexivity|].
  inversion Hv; subst. cbn [unif_grid tensor_spline]. unfold VR, zeros. cbn [map]. rewrite dims_cons. cbn [NS].
  unfold csize; cbn [gsize]. replace (n + 3 - 1)%Z with (n + 2)%Z by lia. apply zsum_ext. intros i Hi.
  rewrite phi_bspline by auto. f_equal. now apply IH.
Qed.
