(** A cubic spline hardly depends on the data far away (C79); prefiltering and exchanged axes
    (C77). *)
From Coq Require Import ZArith List Bool Reals Lia Lra Psatz ZifyBool.
From Flocq Require Import Core.Raux.
From Coquelicot Require Import Coquelicot.
From Verif Require Import Base BaseFacts SplineModel Spec SpecError SpecShape PrefilterModel EvalProps EvalValue EvalR WeightsR RSum EvalExact EvalRProps EvalCases
  PrefilterGeneric PrefilterPass SolverR PrefilterR PrefilterProps ErrorR CubicError ShapeR.
Import ListNotations.
Open Scope R_scope.

(** 4|d_i| <= |d_{i-1}| + |d_{i+1}| in a window and |d| <= B everywhere: halved at each step
    into the window. *)
Lemma halving (d : Z -> R) lo hi B n : (forall i, (0 <= i < n)%Z -> Rabs (d i) <= B) -> 0 <= B ->
  (forall i, (0 <= i < n)%Z -> (lo <= i <= hi)%Z -> Rabs (d i) <= (if (i =? 0)%Z || (i =? n - 1)%Z then 0 else (Rabs (d (i - 1)%Z) + Rabs (d (i + 1)%Z)) / 4)) ->
  forall k i, (0 <= i < n)%Z -> (lo <= i - Z.of_nat k + 1)%Z -> (i + Z.of_nat k - 1 <= hi)%Z -> Rabs (d i) <= B / 2 ^ k.
Proof.
  intros HB B0 H k. induction k as [|k IH]; intros i Hi Hl Hh.
  - cbn. unfold Rdiv. rewrite Rinv_1, Rmult_1_r. auto.
  - assert (P : 0 < 2 ^ k) by (apply pow_lt; lra).
    assert (E : B / 2 ^ S k = B / 2 ^ k / 2) by (cbn [pow]; field; lra). rewrite E.
    assert (Q : 0 <= B / 2 ^ k) by (apply Rdiv_le_0_compat; lra).
    pose proof (H i Hi ltac:(lia)) as A. destruct (_ || _) eqn:E0; [lra|].
    pose proof (IH (i - 1)%Z ltac:(lia) ltac:(lia) ltac:(lia)). pose proof (IH (i + 1)%Z ltac:(lia) ltac:(lia) ltac:(lia)). lra.
Qed.

Section One.
Variables (a b : R) (n : Z).
Let g := Unif a b n.
Hypothesis Hg : valid_dim g.
Let h := (b - a) / (IZR n - 1).

Lemma decay1 y W eps m x : natural n y W -> in_dim g x -> (forall i, (0 <= i < n)%Z -> Rabs (y i) <= eps) ->
  (forall i, (0 <= i < n)%Z -> Rabs (x - gnode g i) < INR m * h -> y i = 0) ->
  Rabs (wsum 3 0 g W x) <= 6 / 2 ^ m * eps.
Proof.
  intros N Hx Hy H0. pose proof (proj1 Hg) as Hn. cbn [gsize g] in Hn.
  assert (He : 0 <= eps) by (pose proof (Hy 0%Z ltac:(lia)); pose proof (Rabs_pos (y 0%Z)); lra).
  destruct (le_lt_dec m 1) as [M1|M2].
  { apply (Rle_trans _ (5 / 2 * eps)); [now apply (stable1 a b n Hg y)|]. apply Rmult_le_compat_r; auto.
    destruct m as [|[|]]; [cbn; lra|cbn; lra|lia]. }
  destruct (own_cell a b n Hg x Hx) as [Hc Hxc]. fold g in Hc, Hxc. set (c := cellR g x) in *.
  assert (L : 0 <= lamC g c x <= 1) by (apply lamC_in; auto).
  pose proof (hpos1 a b n Hg) as Hh. fold h in Hh.
  assert (ND : forall i, gnode g i = gnode g c + IZR (i - c) * h).
  { intros i. unfold g. rewrite !gnode_unif. fold h. rewrite minus_IZR. ring. }
  assert (Z0 : forall i, (0 <= i < n)%Z -> (c - Z.of_nat m + 2 <= i <= c + Z.of_nat m - 1)%Z -> y i = 0).
  { intros i Hi Hw. apply H0; auto. rewrite ND.
    assert (X : gnode g c <= x <= gnode g c + h).
    { rewrite (ND (c + 1)%Z) in Hxc. replace (c + 1 - c)%Z with 1%Z in Hxc by lia. lra. }
    assert (A1 : IZR (i - c) <= INR m - 1) by (rewrite INR_IZR_INZ, <- minus_IZR; apply IZR_le; lia).
    assert (A2 : - INR m + 2 <= IZR (i - c)) by (rewrite INR_IZR_INZ, <- opp_IZR, <- plus_IZR; apply IZR_le; lia).
    generalize dependent (IZR (i - c)). intros r A1 A2. generalize dependent (gnode g c). intros u _ _ X. clear - X A1 A2 Hh. apply Rabs_def1; nra. }
  assert (B : forall i, (0 <= i < n)%Z -> Rabs (curv W i) <= 3 * (4 * eps)).
  { apply (curv_bound n y); auto; try lia; try lra. intros i Hi.
    pose proof (Hy (i - 1)%Z ltac:(lia)) as A1. pose proof (Hy i ltac:(lia)) as A2. pose proof (Hy (i + 1)%Z ltac:(lia)) as A3.
    apply Rabs_le_between in A1, A2, A3. apply Rabs_le. lra. }
  destruct (curv_ends n y W N ltac:(lia)) as [E0 E1].
  assert (D : forall i, (c <= i <= c + 1)%Z -> Rabs (curv W i) <= 3 * (4 * eps) / 2 ^ (m - 2)).
  { intros i Hi. apply (halving (curv W) (c - Z.of_nat m + 3) (c + Z.of_nat m - 2) (3 * (4 * eps)) n); auto; try lra; try lia.
    intros j Hj Hw. destruct (_ || _) eqn:E.
    - assert (j = 0 \/ j = n - 1)%Z as [->| ->] by lia; rewrite ?E0, ?E1, Rabs_R0; lra.
    - pose proof (curv_eq n y W j N ltac:(lia)) as Q. rewrite !Z0 in Q by lia.
      assert (K : curv W j = - (curv W (j - 1) + curv W (j + 1)) / 4) by lra. rewrite K.
      pose proof (Rabs_triang (curv W (j - 1)) (curv W (j + 1))). unfold Rdiv. rewrite Rabs_mult, Rabs_Ropp, (Rabs_right (/ 4)) by lra. lra. }
  unfold g. rewrite wsum_cub by auto. unfold cubG. fold g c. rewrite (cub_chord a b n y) by auto. fold g.
  rewrite !Z0 by lia.
  pose proof (D c ltac:(lia)) as D0. pose proof (D (c + 1)%Z ltac:(lia)) as D1.
  assert (P : 3 * (4 * eps) / 2 ^ (m - 2) = 8 * (6 / 2 ^ m * eps)).
  { assert (PP : 0 < 2 ^ (m - 2)) by (apply pow_lt; lra). replace m with (2 + (m - 2))%nat at 2 by lia. rewrite pow_add. cbn [pow]. field. lra. }
  rewrite P in D0, D1. set (q := 6 / 2 ^ m * eps) in *.
  cbv zeta. set (t := lamC g c x) in *. set (d0 := curv W c) in *. set (d1 := curv W (c + 1)) in *.
  apply Rabs_le_between in D0, D1. clearbody t d0 d1 q. clear - L D0 D1.
  assert (T : 0 <= t * (1 - t) <= 1 / 4) by (pose proof (pow2_ge_0 (t - 1 / 2)); split; nra).
  assert (Q : - (24 * q) <= (2 - t) * d0 + (1 + t) * d1 <= 24 * q) by (split; nra).
  set (r := (2 - t) * d0 + (1 + t) * d1) in *. set (w := t * (1 - t)) in *. clearbody r w.
  assert (Q2 : - q <= w / 6 * r <= q) by (split; nra).
  apply Rabs_le. lra.
Qed.
End One.

(** Data of the first kind near the point, of the second kind elsewhere. *)
Lemma mix1 g y m e1 e2 x : valid_dim g -> ~ is_array g -> in_dim g x -> 0 <= e1 -> 0 <= e2 ->
  (forall k, (0 <= k < gsize g)%Z -> Rabs (y k) <= e2) ->
  (forall k, (0 <= k < gsize g)%Z -> Rabs (x - gnode g k) < INR m * step g -> Rabs (y k) <= e1) ->
  Rabs (wsum 3 0 g (solR (gsize g) y) x) <= 5 / 2 * e1 + 6 / 2 ^ m * e2.
Proof.
  intros Hg Hu Hx H1 H2 Hf Hn. destruct g as [a b n|]; [|cbn in Hu; tauto]. cbn [gsize] in *.
  pose proof (step_h a b n Hg) as Es. set (h := (b - a) / (IZR n - 1)) in *.
  set (y1 := fun k => if Rlt_bool (Rabs (x - gnode (Unif a b n) k)) (INR m * h) then y k else 0).
  set (y2 := fun k => if Rlt_bool (Rabs (x - gnode (Unif a b n) k)) (INR m * h) then 0 else y k).
  assert (E : forall i, (0 <= i <= n + 1)%Z -> solR n y i = solR n y1 i - (-1) * solR n y2 i).
  { apply (natural_unique n y); [apply Hg|apply solR_natural; apply Hg|].
    destruct (solR_natural n y1 (proj1 Hg)) as (A & A0 & A1). destruct (solR_natural n y2 (proj1 Hg)) as (B & B0 & B1).
    split; [|split]; [|lra|lra]. intros i Hi.
    replace (y i) with (y1 i + y2 i) by (unfold y1, y2; destruct (Rlt_bool _ _); ring). rewrite <- A, <- B by auto. field. }
  assert (S : wsum 3 0 (Unif a b n) (solR n y) x = wsum 3 0 (Unif a b n) (solR n y1) x + wsum 3 0 (Unif a b n) (solR n y2) x).
  { unfold wsum. rewrite <- zsum_plus. apply zsum_ext. intros i Hi. rewrite csize_3 in Hi; rewrite E by (cbn [gsize] in Hi; lia). ring. }
  rewrite S. apply (Rle_trans _ _ _ (Rabs_triang _ _)). apply Rplus_le_compat.
  - apply (stable1 a b n Hg y1); auto; [apply solR_natural; apply Hg|]. intros i Hi. unfold y1.
    destruct (Rlt_bool_spec (Rabs (x - gnode (Unif a b n) i)) (INR m * h)); [|rewrite Rabs_R0; auto]. apply Hn; auto. rewrite Es; auto.
  - apply (decay1 a b n Hg y2 _ e2 m x); auto; [apply solR_natural; apply Hg| |].
    + intros i Hi. unfold y2. destruct (Rlt_bool _ _); auto. rewrite Rabs_R0; auto.
    + intros i Hi HL. unfold y2. rewrite Rlt_bool_true; auto.
Qed.

Lemma spl_decay grid m : valid_grid grid -> all_uniform grid -> forall D eps pt, in_domain grid pt -> 0 <= eps ->
  (forall j, inb (map gsize grid) j = true -> Rabs (D j) <= eps) ->
  (forall j, inb (map gsize grid) j = true -> near_node m grid pt j -> D j = 0) ->
  Rabs (spl grid D pt) <= INR (length grid) * (5 / 2) ^ (length grid - 1) * (6 / 2 ^ m) * eps.
Proof.
  intros Hv. induction Hv as [|g grid Hg Hv IH]; intros HU D eps pt Hd He H H0.
  - inversion Hd; subst. cbn. rewrite H0; [rewrite Rabs_R0; lra|reflexivity|exact I].
  - inversion HU as [|? ? U1 U2]; subst. inversion Hd as [|? x ? pt' Hx Hd']; subst.
    rewrite !spl_cons by (auto; now apply in_domain_length).
    assert (P : 0 < 6 / 2 ^ m) by (apply Rdiv_lt_0_compat; [lra|apply pow_lt; lra]). set (q := 6 / 2 ^ m) in *.
    set (y := fun k => spl grid (fun r => D (k :: r)) pt').
    pose proof (mix1 g y m (INR (length grid) * (5 / 2) ^ (length grid - 1) * q * eps) ((5 / 2) ^ length grid * eps) x Hg U1 Hx) as X.
    assert (P5 : forall k, 0 < (5 / 2) ^ k) by (intros; apply pow_lt; lra).
    eapply Rle_trans; [apply X|].
    + apply Rmult_le_pos; auto. apply Rmult_le_pos; [|lra]. apply Rmult_le_pos; [apply pos_INR|left; apply P5].
    + apply Rmult_le_pos; auto. left; apply P5.
    + intros k Hk. unfold y.
      assert (Z0 : spl grid (fun _ => 0) pt' = 0).
      { rewrite (spl_ext grid _ (fun r => 0 * 0 + 0 * 0)) by (auto; try (intros; ring); now apply in_domain_length).
        rewrite (spl_lin grid (fun _ => 0) (fun _ => 0)) by (auto; now apply in_domain_length). ring. }
      replace (spl grid (fun r => D (k :: r)) pt') with (spl grid (fun r => D (k :: r)) pt' - spl grid (fun _ => 0) pt') by (rewrite Z0; ring).
      apply spl_near; auto. intros j Hj. rewrite Rminus_0_r. apply H. cbn. rewrite Hj. lia.
    + intros k Hk Hnear. apply IH; auto.
      * intros j Hj. apply H. cbn. rewrite Hj. lia.
      * intros j Hj Hnn. apply H0; [cbn; rewrite Hj; lia|]. split; auto.
    + fold q. clear X. right. cbn [length]. rewrite S_INR. replace (S (length grid) - 1)%nat with (length grid) by lia.
      destruct (length grid) as [|l]; [cbn; ring|]. replace (S l - 1)%nat with l by lia. cbn [pow]. field.
Qed.

Theorem cubic_local mode mode' grid comps (V V' : arr R) C C' m eps pt suf v v' :
  valid_grid grid -> all_uniform grid -> supported_dim grid -> values_ok grid comps V -> values_ok grid comps V' ->
  inb comps suf = true -> in_domain grid pt ->
  (forall idx, inb (map gsize grid) idx = true -> Rabs (acell V (idx ++ suf) - acell V' (idx ++ suf)) <= eps) ->
  (forall idx, inb (map gsize grid) idx = true -> near_node m grid pt idx -> acell V (idx ++ suf) = acell V' (idx ++ suf)) ->
  filter_cubic grid V None = Ok (VArr C, None) -> filter_cubic grid V' None = Ok (VArr C', None) ->
  value_cubic mode grid comps C pt suf v -> value_cubic mode' grid comps C' pt suf v' ->
  Rabs (v - v') <= INR (length grid) * (5 / 2) ^ (length grid - 1) * (6 / 2 ^ m) * eps.
Proof.
  intros Hv HU HS HV HV' Hs Hd He Hn E E' H H'.
  rewrite (value_spl mode grid comps V C pt suf v), (value_spl mode' grid comps V' C' pt suf v'); auto.
  assert (L : length pt = length grid) by (now apply in_domain_length).
  set (D := fun idx => acell V (idx ++ suf)). set (D' := fun idx => acell V' (idx ++ suf)).
  replace (spl grid D pt - spl grid D' pt) with (spl grid (fun idx => 1 * D idx + -1 * D' idx) pt) by (rewrite spl_lin by auto; ring).
  apply spl_decay; auto.
  - destruct (some_index grid Hv) as [idx Hi]. eapply Rle_trans; [apply Rabs_pos|apply (He idx Hi)].
  - intros j Hj. replace (1 * D j + -1 * D' j) with (D j - D' j) by ring. apply He; auto.
  - intros j Hj Hnn. unfold D, D'. rewrite (Hn j) by auto. ring.
Qed.

(** The spline is a sum of the data with weights that depend on one coordinate each. *)
Definition unit_data (k : Z) : Z -> R := fun i => if (i =? k)%Z then 1 else 0.
Lemma sol_sum n y i : (2 <= n)%Z -> (0 <= i < n + 2)%Z -> solR n y i = zsum n (fun k => y k * solR n (unit_data k) i).
Proof.
  intros Hn Hi. apply (solR_unique n y (fun i => zsum n (fun k => y k * solR n (unit_data k) i))); auto.
  split; [|split].
  - intros j Hj. rewrite <- !zsum_scal, <- !zsum_plus. unfold Rdiv. rewrite Rmult_comm, <- zsum_scal.
    rewrite (zsum_ext n _ (fun k => y k * unit_data k j)).
    + rewrite (zsum_single n _ j); auto.
      * unfold unit_data. rewrite Z.eqb_refl. ring.
      * intros k Hk Hne. unfold unit_data. destruct (j =? k)%Z eqn:E; [lia|ring].
    + intros k Hk. destruct (solR_natural n (unit_data k) Hn) as [A _]. rewrite <- (A j Hj). field.
  - rewrite <- !zsum_scal, <- zsum_minus, <- zsum_plus. apply zsum_zero. intros k Hk. destruct (solR_natural n (unit_data k) Hn) as (_ & A & _).
    transitivity (y k * 0); [rewrite <- A; ring|ring].
  - rewrite <- !zsum_scal, <- zsum_minus, <- zsum_plus. apply zsum_zero. intros k Hk. destruct (solR_natural n (unit_data k) Hn) as (_ & _ & A).
    transitivity (y k * 0); [rewrite <- A; ring|ring].
Qed.
Definition cardinal (g : gdim R) (x : R) (k : Z) : R := wsum 3 0 g (solR (gsize g) (unit_data k)) x.
Lemma wsum_cardinal g y x : valid_dim g -> wsum 3 0 g (solR (gsize g) y) x = zsum (gsize g) (fun k => y k * cardinal g x k).
Proof.
  intros Hg. unfold cardinal, wsum. rewrite csize_3.
  rewrite (zsum_ext (gsize g + 2) _ (fun i => zsum (gsize g) (fun k => phi 3 0 g x i * (y k * solR (gsize g) (unit_data k) i)))).
  - rewrite zsum_swap. apply zsum_ext. intros k Hk. rewrite <- zsum_scal. apply zsum_ext. intros i Hi. ring.
  - intros i Hi. rewrite sol_sum by (auto; apply Hg). rewrite zsum_scal. reflexivity.
Qed.

Lemma spl_exchange g1 : forall g h g2 D p1 x y p2, valid_grid (g1 ++ g :: h :: g2) -> length p1 = length g1 -> length p2 = length g2 ->
  forall D', (forall i1 i j i2, inb (map gsize g1) i1 = true -> (0 <= i < gsize g)%Z -> (0 <= j < gsize h)%Z -> inb (map gsize g2) i2 = true ->
    D' (i1 ++ j :: i :: i2) = D (i1 ++ i :: j :: i2)) ->
  spl (g1 ++ g :: h :: g2) D (p1 ++ x :: y :: p2) = spl (g1 ++ h :: g :: g2) D' (p1 ++ y :: x :: p2).
Proof.
  induction g1 as [|e g1 IH]; intros g h g2 D p1 x y p2 Hv L1 L2 D' H.
  - destruct p1; [|discriminate]. cbn [app] in *. inversion Hv as [|? ? Vg Hv']; subst. inversion Hv' as [|? ? Vh V2]; subst.
    assert (VV : valid_grid (g :: g2)) by (constructor; auto).
    rewrite (spl_cons g), (spl_cons h) by (auto; cbn [length]; lia).
    rewrite !wsum_cardinal by auto.
    rewrite (zsum_ext (gsize g) _ (fun k => zsum (gsize h) (fun l => spl g2 (fun r => D (k :: l :: r)) p2 * cardinal h y l * cardinal g x k))).
    2:{ intros k Hk. cbv beta. rewrite spl_cons by auto. rewrite wsum_cardinal by auto. rewrite zsum_scal_r. reflexivity. }
    rewrite (zsum_ext (gsize h) _ (fun l => zsum (gsize g) (fun k => spl g2 (fun r => D (k :: l :: r)) p2 * cardinal h y l * cardinal g x k))).
    2:{ intros k Hk. cbv beta. rewrite spl_cons by auto. rewrite wsum_cardinal by auto. rewrite <- zsum_scal_r. apply zsum_ext. intros i Hi.
      rewrite (spl_ext g2 (fun r => D' (k :: i :: r)) (fun r => D (i :: k :: r))); auto; [ring|]. intros r Hr. apply (H [] i k r); auto. }
    apply zsum_swap.
  - destruct p1 as [|z p1]; [discriminate|]. cbn [app] in *. inversion Hv as [|? ? Ve Hv']; subst.
    cbn [length] in L1. pose proof (valid_exchange _ _ _ _ Hv') as Hv''.
    rewrite !spl_cons by (auto; rewrite !app_length; cbn [length]; lia).
    unfold wsum. apply zsum_ext. intros i Hi. f_equal. rewrite csize_3 in Hi. apply solR_ext; auto; [apply Ve|].
    intros k Hk. apply IH; auto. intros i1 i' j i2 HI Hi' Hj H2. apply (H (k :: i1)); auto. cbn. rewrite HI. lia.
Qed.

Lemma cubic_exchange mode g1 g h g2 comps (V V' C C' : arr R) p1 x y p2 suf v v' :
  let grid := g1 ++ g :: h :: g2 in let grid' := g1 ++ h :: g :: g2 in
  valid_grid grid -> all_uniform grid -> supported_dim grid -> values_ok grid comps V -> values_ok grid' comps V' -> inb comps suf = true ->
  in_domain g1 p1 -> in_dim g x -> in_dim h y -> in_domain g2 p2 ->
  transposed gsize g1 g h g2 V V' suf ->
  filter_cubic grid V None = Ok (VArr C, None) -> filter_cubic grid' V' None = Ok (VArr C', None) ->
  value_cubic mode grid comps C (p1 ++ x :: y :: p2) suf v ->
  value_cubic mode grid' comps C' (p1 ++ y :: x :: p2) suf v' -> v = v'.
Proof.
  intros grid grid' Hv HU HS HV HV' Hs H1 Hx Hy H2 H E E' A A'. unfold grid, grid' in *.
  pose proof (valid_exchange _ _ _ _ Hv) as Hv'.
  assert (HU' : all_uniform (g1 ++ h :: g :: g2)).
  { unfold all_uniform in *. apply Forall_app in HU. destruct HU as [U1 U2]. inversion U2 as [|? ? U3 U4]; subst. inversion U4; subst. apply Forall_app; split; auto. }
  assert (HS' : supported_dim (g1 ++ h :: g :: g2)) by (unfold supported_dim in *; rewrite !app_length in *; auto).
  rewrite (value_spl mode (g1 ++ g :: h :: g2) comps V C (p1 ++ x :: y :: p2) suf v), (value_spl mode (g1 ++ h :: g :: g2) comps V' C' (p1 ++ y :: x :: p2) suf v'); auto.
  - apply spl_exchange; auto using in_domain_length.
  - refine (Forall2_app H1 _). constructor; auto.
  - refine (Forall2_app H1 _). constructor; auto.
Qed.
