(** Proofs of the properties of the prefilter (C13-C18, C20). *)
From Coq Require Import ZArith List Bool Reals Lia Lra Psatz ZifyBool.
From Coquelicot Require Import Coquelicot.
From Flocq Require Import Core.Raux.
From Verif Require Import Base BaseFacts SplineModel Spec PrefilterModel PrefilterGeneric PrefilterPass
  EvalProps EvalValue EvalR WeightsR RSum EvalExact EvalRProps EvalCases SolverR PrefilterR.
Import ListNotations.
Open Scope R_scope.

(** ** Evaluation at a node of prefiltered coefficients *)
Lemma phi3_node_sum g W j : valid_dim g -> (0 <= j < gsize g)%Z ->
  zsum (csize 3 g) (fun i => phi 3 0 g (gnode g j) i * W i) = (W j + 4 * W (j + 1)%Z + W (j + 2)%Z) / 6.
Proof.
  intros H Hj. rewrite csize_3.
  rewrite (zsum_window _ _ j 3); try lia.
  - change 3%Z with (2 + 1)%Z. rewrite zsum_S, zsum_2 by lia.
    rewrite !phi3_node by auto. rewrite Z.add_0_r, !Z.eqb_refl.
    replace (j + 1 =? j)%Z with false by lia. replace (j + 2 =? j)%Z with false by lia.
    replace (j + 2 =? j + 1)%Z with false by lia. field.
  - intros i Hi Ho. rewrite phi3_node by auto. replace (i =? j)%Z with false by lia.
    replace (i =? j + 1)%Z with false by lia. replace (i =? j + 2)%Z with false by lia. ring.
Qed.

Lemma VR_ext k (grid : list (gdim R)) oo c c' pt : length oo = length grid -> length pt = length grid ->
  (forall idx, inb (map (csize k) grid) idx = true -> c idx = c' idx) -> VR k grid oo c pt = VR k grid oo c' pt.
Proof. intros H1 H2 H. unfold VR. apply NS_ext. intros. apply H. now rewrite dims_fst in H0. Qed.

Lemma big_sizes grid : valid_grid grid -> big (map gsize grid).
Proof. intros H. induction H as [|g grid [H _]]; constructor; auto. Qed.

Lemma all2_csize (grid : list (gdim R)) : all2 (map gsize grid) = map (csize 3) grid.
Proof. unfold all2. rewrite map_map. apply map_ext. intros. unfold csize. lia. Qed.

Lemma VR3_node grid : valid_grid grid -> forall D idx, inb (map gsize grid) idx = true ->
  VR 3 grid (zeros grid) (PF (map gsize grid) D) (node_at grid idx) = D idx.
Proof.
  intros Hv. induction Hv as [|g grid Hg Hv IH]; intros D [|i idx] H; try discriminate; auto.
  cbn [map] in H. cbn [inb] in H. apply andb_true_iff in H as [H1 H2].
  unfold VR, zeros, node_at. cbn [map map2]. rewrite dims_cons. cbn [NS].
  rewrite (zsum_ext _ _ (fun j => phi 3 0 g (gnode g i) j * solR (gsize g) (fun k => D (k :: idx)) j)).
  - rewrite phi3_node_sum by (auto; lia).
    destruct (solR_natural (gsize g) (fun k => D (k :: idx)) (proj1 Hg)) as [E _]. apply E. lia.
  - intros j Hj. f_equal.
    exact (IH (fun r' => solR (gsize g) (fun k => D (k :: r')) j) idx H2).
Qed.

(** ** Affine data *)
Definition shift_node (grid : list (gdim R)) (idx : list Z) : list R := map2 (fun g i => gnode g (i - 1)) grid idx.

Lemma gnode_unif a b n i : gnode (Unif a b n) i = a + IZR i * ((b - a) / (IZR n - 1)).
Proof. reflexivity. Qed.

Lemma solR_affine g u v i : valid_dim g -> ~ is_array g -> (0 <= i < gsize g + 2)%Z ->
  solR (gsize g) (fun j => u + v * gnode g j) i = u + v * gnode g (i - 1).
Proof.
  intros Hg Hu Hi. destruct g as [a b n|]; [|cbn in Hu; tauto].
  apply (solR_unique _ _ (fun i => u + v * gnode (Unif a b n) (i - 1)%Z)); [apply Hg| |exact Hi].
  cbn [gsize]. split; [|split].
  - intros j Hj. rewrite !gnode_unif, !minus_IZR, !plus_IZR. field. apply gsize_IZR in Hg. cbn in Hg. lra.
  - rewrite !gnode_unif, !minus_IZR. ring.
  - rewrite !gnode_unif, !minus_IZR, !plus_IZR. ring.
Qed.

Lemma PF_affine grid : valid_grid grid -> all_uniform grid -> forall f idx,
  multi_affine (length grid) f -> inb (map (csize 3) grid) idx = true ->
  PF (map gsize grid) (fun j => f (node_at grid j)) idx = f (shift_node grid idx).
Proof.
  intros Hv. induction Hv as [|g grid Hg Hv IH]; intros HU f [|i idx] Hf H; try discriminate; auto.
  inversion HU as [|? ? U1 U2]; subst. cbn [map] in H. cbn [inb] in H. apply andb_true_iff in H as [H1 H2].
  cbn [map PF shift_node map2].
  rewrite (PF_ext _ (big_sizes _ Hv) _ (fun j => f (gnode g (i - 1) :: node_at grid j))).
  - apply (IH U2 (fun p => f (gnode g (i - 1) :: p)) idx); auto.
    intros pre y z t post Hlen. apply (Hf (gnode g (i - 1) :: pre) y z t post). cbn in *. lia.
  - intros j Hj.
    pose proof (affine_1d (fun t => f (t :: node_at grid j))) as A. cbn beta in A.
    assert (HL : length (node_at grid j) = length grid) by now apply node_at_length.
    specialize (A (fun y z t => Hf [] y z t (node_at grid j) (f_equal S HL))).
    rewrite (solR_ext _ _ (fun k => f (0 :: node_at grid j) + (f (1 :: node_at grid j) - f (0 :: node_at grid j)) * gnode g k)).
    + rewrite solR_affine by (auto; unfold csize in H1; lia). rewrite (A (gnode g (i - 1))). ring.
    + apply Hg.
    + intros k Hk. cbn [node_at map2]. fold (node_at grid j). rewrite (A (gnode g k)). ring.
    + unfold csize in H1; lia.
  - rewrite all2_csize. auto.
Qed.

Lemma VR3_affine grid : valid_grid grid -> all_uniform grid -> forall f pt, length pt = length grid ->
  multi_affine (length grid) f -> VR 3 grid (zeros grid) (fun idx => f (shift_node grid idx)) pt = f pt.
Proof.
  intros Hv. induction Hv as [|g grid Hg Hv IH]; intros HU f [|x pt] HL Hf; try discriminate; auto.
  inversion HU as [|? ? U1 U2]; subst.
  unfold VR, zeros. cbn [map]. rewrite dims_cons. cbn [NS].
  rewrite (zsum_ext _ _ (fun i => phi 3 0 g x i * (f (0 :: pt) + gnode g (i - 1) * (f (1 :: pt) - f (0 :: pt))))).
  - rewrite (zsum_ext _ _ (fun i => f (0 :: pt) * phi 3 0 g x i + (f (1 :: pt) - f (0 :: pt)) * (phi 3 0 g x i * gnode g (i - 1))))
      by (intros; ring).
    destruct g as [a b n|]; [|cbn in U1; tauto].
    rewrite zsum_plus, !zsum_scal, phi3_one by auto.
    pose proof (phi3_id a b n x Hg) as EI. cbn zeta in EI. rewrite EI.
    pose proof (affine_1d (fun t => f (t :: pt)) (fun y z t => Hf [] y z t pt HL) x) as E. cbn beta in E. rewrite E. ring.
  - intros i Hi. f_equal.
    pose proof (affine_1d (fun t => f (t :: pt)) (fun y z t => Hf [] y z t pt HL) (gnode g (i - 1))) as E. cbn beta in E. rewrite <- E.
    apply (IH U2 (fun p => f (gnode g (i - 1) :: p)) pt); [cbn in HL; lia|].
    intros pre y z t post Hlen. apply (Hf (gnode g (i - 1) :: pre) y z t post). cbn in *. lia.
Qed.

(** ** Calls *)
Lemma comps_ok_of grid comps (V : arr R) : values_ok grid comps V -> comps_ok comps.
Proof. intros [_ H]. exact H. Qed.

Lemma filter_call grid comps (V : arr R) :
  valid_grid grid -> all_uniform grid -> supported_dim grid -> values_ok grid comps V ->
  exists C, filter_cubic grid V None = Ok (VArr C, None) /\ coefs_ok 3 grid comps C /\
    forall idx suf, inb (map (csize 3) grid) idx = true -> inb comps suf = true ->
      acell C (idx ++ suf) = PF (map gsize grid) (fun r => acell V (r ++ suf)) idx.
Proof.
  intros Hv HU HS [HV HC].
  destruct (filter_alloc_R grid V comps (map gsize grid)) as [C (E & S & F)]; auto using big_sizes, map_length.
  exists C. unfold filter_cubic. rewrite E. cbn. split; auto. rewrite all2_csize in *. split; [split; auto|].
  intros; apply F; auto.
Qed.

Theorem filter_interpolates mode grid comps (V : arr R) idx suf :
  valid_grid grid -> all_uniform grid -> supported_dim grid -> values_ok grid comps V ->
  inb (map gsize grid) idx = true -> inb comps suf = true ->
  exists C, filter_cubic grid V None = Ok (VArr C, None) /\
    value_cubic mode grid comps C (node_at grid idx) suf (acell V (idx ++ suf)).
Proof.
  intros Hv HU HS HV Hi Hs. destruct (filter_call grid comps V Hv HU HS HV) as [C (E & HC & F)].
  exists C. split; auto. apply (proj2 (value_cubic_at _ _ _ _ _ _ _)).
  pose proof (node_in_domain grid Hv idx Hi) as Hd.
  apply value_at_none; auto. { right; auto. } { now apply node_at_length. }
  rewrite xpoint_inside by auto. symmetry.
  rewrite <- (VR3_node grid Hv (fun r => acell V (r ++ suf)) idx Hi).
  apply VR_ext; auto using zeros_length, node_at_length.
Qed.

Theorem prefilter_interpolates k xm grid comps (V : arr R) idx suf :
  (k = 1 \/ k = 3 /\ all_uniform grid /\ supported_dim grid)%Z -> valid_grid grid -> values_ok grid comps V ->
  inb (map gsize grid) idx = true -> inb comps suf = true ->
  exists C, prefilter grid V None k = Ok (VArr C, None) /\
    value_at k None xm grid comps C (node_at grid idx) suf (acell V (idx ++ suf)).
Proof.
  intros Hk Hv HV Hi Hs. destruct Hk as [->|(-> & HU & HS)]; unfold prefilter; cbn [Z.eqb Pos.eqb].
  - exists V. split; auto. apply linear_at_node; auto. destruct HV as [HV1 HV2]. split; auto.
    now rewrite csize1_map.
  - destruct (filter_interpolates (Some xm) grid comps V idx suf) as [C [E H]]; auto.
    exists C. split; [exact E|]. exact (proj1 (value_cubic_at _ _ _ _ _ _ _) H).
Qed.

Theorem filter_affine mode grid comps (V : arr R) f pt suf :
  valid_grid grid -> all_uniform grid -> supported_dim grid -> values_ok grid comps V ->
  inb comps suf = true -> multi_affine (length grid) f ->
  (forall idx, inb (map gsize grid) idx = true -> acell V (idx ++ suf) = f (node_at grid idx)) ->
  length pt = length grid -> (default_mode mode = XLinear \/ in_domain grid pt) ->
  exists C, filter_cubic grid V None = Ok (VArr C, None) /\ value_cubic mode grid comps C pt suf (f pt).
Proof.
  intros Hv HU HS HV Hs Hf HVf HL Hm. destruct (filter_call grid comps V Hv HU HS HV) as [C (E & HC & F)].
  exists C. split; auto. apply (proj2 (value_cubic_at _ _ _ _ _ _ _)).
  apply value_at_none; auto. { right; auto. }
  assert (X : xpoint (default_mode mode) grid pt = Some pt).
  { destruct Hm as [->|Hd]; [reflexivity|now apply xpoint_inside]. }
  rewrite X. rewrite <- (VR3_affine grid Hv HU f pt HL Hf) at 1.
  apply VR_ext; auto using zeros_length. intros idx Hi. rewrite F by auto. symmetry.
  rewrite <- PF_affine by auto. apply PF_ext; auto using big_sizes. rewrite all2_csize. auto.
Qed.

(** Never fails; shape. *)
Theorem filter_total grid comps (V : arr R) :
  valid_grid grid -> all_uniform grid -> supported_dim grid -> values_ok grid comps V ->
  (exists C, filter_cubic grid V None = Ok (VArr C, None) /\ ashape C = map (fun n => (n + 2)%Z) (map gsize grid) ++ comps) /\
  (forall C0, ashape C0 = map (fun n => (n + 2)%Z) (map gsize grid) ++ comps ->
     exists C, filter_cubic grid V (Some C0) = Ok (VNone, Some C) /\ ashape C = ashape C0).
Proof.
  intros Hv HU HS HV. split.
  - destruct (filter_call grid comps V Hv HU HS HV) as [C (E & [HC _] & F)]. exists C. split; auto.
    rewrite <- all2_csize in HC. exact HC.
  - intros C0 H0. destruct HV as [HV HC].
    destruct (filter_inplace_R grid V comps (map gsize grid) C0) as [C (E & S & _)]; auto using big_sizes, map_length.
    exists C. unfold filter_cubic. rewrite E. auto.
Qed.

(** Natural spline coefficients, dimension 1. *)
Theorem filter_1d_unique a b n (V : arr R) :
  valid_dim (Unif a b n) -> ashape V = [n] ->
  exists C, filter_cubic [Unif a b n] V None = Ok (VArr C, None) /\ ashape C = [(n + 2)%Z] /\
    forall c : Z -> R,
      natural_coefs n (fun i => acell V [i]) c <->
      (forall i, (0 <= i < n + 2)%Z -> c i = acell C [i]).
Proof.
  intros Hg HV.
  assert (Hvg : valid_grid [Unif a b n]) by (constructor; auto).
  assert (HU : all_uniform [Unif a b n]) by (constructor; auto).
  assert (HVo : values_ok [Unif a b n] [] V) by (split; [exact HV|now left]).
  destruct (filter_call [Unif a b n] [] V Hvg HU) as [C (E & [HC _] & F)]; auto.
  { unfold supported_dim; cbn. lia. }
  assert (HC2 : ashape C = [(n + 2)%Z]) by (rewrite HC; cbn; unfold csize; cbn; f_equal; lia).
  exists C. split; [exact E|]. split; [exact HC2|].
  assert (FC : forall i, (0 <= i < n + 2)%Z -> acell C [i] = solR n (fun i => acell V [i]) i).
  { intros i Hi. specialize (F [i] []). cbn in F. apply F; auto. unfold csize. cbn. lia. }
  assert (Hn : (2 <= n)%Z) by apply Hg.
  intros c. split.
  - intros Hc i Hi. rewrite FC by auto. symmetry. apply solR_unique; auto.
  - intros Hc. pose proof (solR_natural n (fun i => acell V [i]) Hn) as (A & B & D).
    assert (Q : forall i, (0 <= i < n + 2)%Z -> c i = solR n (fun i => acell V [i]) i).
    { intros i Hi. rewrite Hc, FC by auto. reflexivity. }
    split; [|split].
    + intros i Hi. rewrite !Q by lia. apply A. auto.
    + rewrite !Q by lia. exact B.
    + rewrite !Q by lia. exact D.
Qed.

(** Independence of the previous content of the output array, any number type. *)
Theorem inplace_content {T} {NT : Num T} (grid : list (gdim T)) (D C0 : arr T) C :
  grid <> [] -> List.Forall (fun m : Z => (1 <= m)%Z) (firstn (length grid) (ashape D)) ->
  ashape C0 = coef_shape (length grid) (ashape D) ->
  filter_cubic grid D None = Ok (VArr C, None) ->
  exists C', filter_cubic grid D (Some C0) = Ok (VNone, Some C') /\ aeq C C'.
Proof.
  intros Hg HF HS H. unfold filter_cubic, filter_alloc in H |- *.
  destruct ((zlen grid <? 1)%Z || (4 <? zlen grid)%Z); [discriminate|].
  destruct ((andim D =? zlen grid)%Z || (andim D =? zlen grid + 1)%Z) eqn:E; [|discriminate].
  apply bind_ok in H as [C1 [E1 E2]]. inversion E2; subst C1.
  pose proof (filter_inplace_garbage grid D (azeros (coef_shape (length grid) (ashape D))) C0) as G.
  specialize (G Hg HF). rewrite E1 in G.
  destruct (filter_inplace grid D C0) as [C'|e]; cbn in G |- *.
  - exists C'. split; auto. apply G; auto. unfold andim, zlen in E. lia.
  - exfalso. apply G; auto. unfold andim, zlen in E. lia.
Qed.

(** Dependence on the data only; linearity; the legacy code. *)
Theorem filter_bounds_irrelevant grid grid' comps (V : arr R) C C' :
  valid_grid grid -> all_uniform grid -> valid_grid grid' -> all_uniform grid' -> supported_dim grid ->
  map gsize grid = map gsize grid' -> values_ok grid comps V ->
  filter_cubic grid V None = Ok (VArr C, None) -> filter_cubic grid' V None = Ok (VArr C', None) -> aeq C C'.
Proof.
  intros Hv HU Hv' HU' HS HE HV E E'.
  assert (HL : length grid = length grid') by (rewrite <- (map_length gsize grid), HE; apply map_length).
  destruct (filter_call grid comps V Hv HU HS HV) as [C1 (E1 & [HC _] & F)].
  destruct (filter_call grid' comps V Hv' HU') as [C2 (E2 & [HC' _] & F')].
  { unfold supported_dim in *. lia. } { destruct HV as [A B]. split; auto. congruence. }
  rewrite E in E1. inversion E1; subst C1. rewrite E' in E2. inversion E2; subst C2.
  assert (HX : map (csize 3) grid = map (csize 3) grid') by (rewrite <- !all2_csize; congruence).
  split; [congruence|]. rewrite HC. intros idx Hi. apply inb_split in Hi as (ia & ib & -> & H1 & H2).
  rewrite F, F' by (auto; congruence). now rewrite HE.
Qed.

Theorem filter_linear grid comps (V V' : arr R) s t C C' C2 :
  valid_grid grid -> all_uniform grid -> supported_dim grid ->
  values_ok grid comps V -> values_ok grid comps V' ->
  filter_cubic grid V None = Ok (VArr C, None) -> filter_cubic grid V' None = Ok (VArr C', None) ->
  filter_cubic grid (alin s V t V') None = Ok (VArr C2, None) -> aeq C2 (alin s C t C').
Proof.
  intros Hv HU HS HV HV' E E' E2.
  destruct (filter_call grid comps V Hv HU HS HV) as [C1 (X1 & [HC _] & F)].
  rewrite E in X1. inversion X1; subst C1.
  destruct (filter_call grid comps V' Hv HU HS HV') as [C1 (X1' & [HC' _] & F')].
  rewrite E' in X1'. inversion X1'; subst C1.
  assert (HV2 : values_ok grid comps (alin s V t V')) by exact HV.
  destruct (filter_call grid comps _ Hv HU HS HV2) as [C1 (X2 & [HC2 _] & F2)].
  rewrite E2 in X2. inversion X2; subst C1.
  split; [cbn; congruence|]. rewrite HC2. intros idx Hi. apply inb_split in Hi as (ia & ib & -> & H1 & H2).
  cbn. rewrite F2, F, F' by auto. clear - Hv H1.
  pose proof (big_sizes grid Hv) as HB. rewrite <- all2_csize in H1. revert H1.
  cut (forall D D', inb (all2 (map gsize grid)) ia = true ->
    PF (map gsize grid) (fun r => s * D r + t * D' r) ia = s * PF (map gsize grid) D ia + t * PF (map gsize grid) D' ia).
  { intros H H1. exact (H (fun r => acell V (r ++ ib)) (fun r => acell V' (r ++ ib)) H1). }
  revert ia. induction HB as [|n ns Hn HB IH]; intros [|i ia] D D' H; try discriminate; auto.
  cbn [PF]. cbn in H. apply andb_true_iff in H as [H1 H2]. rewrite <- IH by auto.
  apply PF_ext; auto. intros j Hj.
  apply (solR_unique n _ (fun i => s * solR n (fun k => D (k :: j)) i + t * solR n (fun k => D' (k :: j)) i)); auto; try lia.
  apply natural_lin; apply solR_natural; auto.
Qed.

Theorem legacy_same grid (V : arr R) dinvs C :
  valid_grid grid -> all_uniform grid -> supported_dim grid -> values_ok grid [] V ->
  length dinvs = length grid -> List.Forall (fun x => x <> 0) dinvs ->
  filter_cubic grid V None = Ok (VArr C, None) ->
  exists C', filter_data dinvs V = Ok (Some C') /\ aeq C C'.
Proof.
  intros Hv HU HS HV HL HD E.
  destruct (filter_call grid [] V Hv HU HS HV) as [C1 (E1 & [HC _] & F)].
  rewrite E in E1. inversion E1; subst C1.
  destruct HV as [HV _]. rewrite app_nil_r in HV, HC.
  destruct (filter_data_R dinvs V HD) as [C' (E' & S' & F')].
  - rewrite HL. exact HS.
  - rewrite HV. now apply big_sizes.
  - rewrite HV, map_length. auto.
  - exists C'. split; auto. split. { rewrite S', HV, all2_csize. exact HC. }
    rewrite HC. intros idx Hi. rewrite F' by (rewrite HV, all2_csize; auto). rewrite HV.
    specialize (F idx [] Hi eq_refl). rewrite app_nil_r in F. rewrite F.
    apply PF_ext; auto using big_sizes.
    + intros j _. now rewrite app_nil_r.
    + rewrite all2_csize; auto.
Qed.

(** ** Second derivative of the 1-d interpolant *)
Section C2.
Variables (a b : R) (n : Z) (W : Z -> R).
Let g := Unif a b n.
Hypothesis Hg : valid_dim g.
Let h := (b - a) / (IZR n - 1).

Definition cub (w : Z -> R -> R) (c : Z) (x : R) : R :=
  w 0%Z (lamC g c x) * W c + w 1%Z (lamC g c x) * W (c + 1)%Z +
  w 2%Z (lamC g c x) * W (c + 2)%Z + w 3%Z (lamC g c x) * W (c + 3)%Z.
Definition cubG (w : Z -> R -> R) (x : R) : R := cub w (cellR g x) x.

Lemma hpos : 0 < h.
Proof. exact (unif_step a b n Hg). Qed.

Lemma lamC_h c x : lamC g c x = (x - gnode g c) * / h.
Proof.
  unfold lamC, Rdiv. unfold g. rewrite unif_gap by exact Hg. unfold h. f_equal.
  apply gsize_IZR in Hg as Hn. destruct Hg as [_ Hab]; cbn in *. field. lra.
Qed.
Lemma lamC_derive c x : is_derive (lamC g c) x (/ h).
Proof.
  apply (is_derive_ext (fun x => (x - gnode g c) * / h)); [intros; symmetry; apply lamC_h|].
  auto_derive; auto. ring.
Qed.

Lemma cub_derive w dw c x : (forall j t, is_derive (w j) t (dw j t)) ->
  is_derive (cub w c) x (/ h * cub dw c x).
Proof.
  intros H.
  assert (A : forall j V, is_derive (fun x => w j (lamC g c x) * V) x (/ h * dw j (lamC g c x) * V)).
  { intros j V. apply (is_derive_ext (fun x => V * w j (lamC g c x))). intros; apply Rmult_comm.
    replace (/ h * dw j (lamC g c x) * V) with (V * (/ h * dw j (lamC g c x))) by ring.
    apply is_derive_scal. apply (is_derive_comp (w j) (lamC g c)); auto. apply lamC_derive. }
  unfold cub.
  replace (/ h * (dw 0%Z (lamC g c x) * W c + dw 1%Z (lamC g c x) * W (c + 1)%Z + dw 2%Z (lamC g c x) * W (c + 2)%Z + dw 3%Z (lamC g c x) * W (c + 3)%Z))
    with (/ h * dw 0%Z (lamC g c x) * W c + / h * dw 1%Z (lamC g c x) * W (c + 1)%Z + / h * dw 2%Z (lamC g c x) * W (c + 2)%Z + / h * dw 3%Z (lamC g c x) * W (c + 3)%Z) by ring.
  apply (is_derive_plus (fun x => w 0%Z (lamC g c x) * W c + w 1%Z (lamC g c x) * W (c + 1)%Z + w 2%Z (lamC g c x) * W (c + 2)%Z) (fun x => w 3%Z (lamC g c x) * W (c + 3)%Z)); [|apply A].
  apply (is_derive_plus (fun x => w 0%Z (lamC g c x) * W c + w 1%Z (lamC g c x) * W (c + 1)%Z) (fun x => w 2%Z (lamC g c x) * W (c + 2)%Z)); [|apply A].
  apply (is_derive_plus (fun x => w 0%Z (lamC g c x) * W c) (fun x => w 1%Z (lamC g c x) * W (c + 1)%Z)); apply A.
Qed.

Definition joins (w : Z -> R -> R) : Prop :=
  w 0%Z 1 = 0 /\ w 1%Z 1 = w 0%Z 0 /\ w 2%Z 1 = w 1%Z 0 /\ w 3%Z 1 = w 2%Z 0 /\ w 3%Z 0 = 0.
Lemma cub_match w c : joins w -> (0 <= c < gsize g - 2)%Z ->
  cub w c (gnode g (c + 1)) = cub w (c + 1) (gnode g (c + 1)).
Proof.
  intros (J0 & J1 & J2 & J3 & J4) Hc. unfold cub. rewrite lamC_self, lamC_next by (auto; lia).
  replace (c + 1 + 1)%Z with (c + 2)%Z by lia. replace (c + 1 + 2)%Z with (c + 3)%Z by lia.
  rewrite J0, J1, J2, J3, J4. ring.
Qed.

Lemma joins_bsp : joins bsp. Proof. unfold joins; cbn; repeat split; lra. Qed.
Lemma joins_dbsp : joins dbsp. Proof. unfold joins; cbn; repeat split; lra. Qed.
Lemma joins_ddbsp : joins ddbsp. Proof. unfold joins; cbn; repeat split; lra. Qed.

Lemma cubG_derive w dw x : joins w -> joins dw -> (forall j t, is_derive (w j) t (dw j t)) ->
  is_derive (cubG w) x (/ h * cubG dw x).
Proof.
  intros J Jd H.
  apply (glued_derive g (cubG w) (cub w) Hg) with (D := fun c x => / h * cub dw c x).
  - reflexivity.
  - intros; now apply cub_match.
  - intros; now apply cub_derive.
  - intros c Hc. f_equal. now apply cub_match.
Qed.

Lemma cubG_continuous x : continuity_pt (cubG ddbsp) x.
Proof.
  apply (glued_continuous g (cubG ddbsp) (cub ddbsp) Hg).
  - reflexivity.
  - intros; apply cub_match; auto. apply joins_ddbsp.
  - intros c y.
    apply (is_derive_continuity _ y (/ h * cub (fun j _ => match j with 0%Z => -1 | 1%Z => 3 | 2%Z => -3 | 3%Z => 1 | _ => 0 end) c y)).
    apply cub_derive. intros j t. unfold ddbsp.
    destruct j as [|[[]|[]|]|]; auto_derive; auto; ring.
Qed.

Lemma lam_inside x : in_dim g x -> 0 <= lamC g (cellR g x) x <= 1.
Proof. intros [H1 H2]. split; [apply lam_ge0|apply lam_le1]; auto. Qed.

Lemma wsum_cub x : in_dim g x -> wsum 3 0 g W x = cubG bsp x.
Proof.
  intros Hx. unfold wsum. rewrite phi3_sum by auto. rewrite zsum_4. unfold cubG, cub.
  change (lamR g x) with (lamC g (cellR g x) x). pose proof (lam_inside x Hx) as Hl.
  unfold ebsp. rewrite !Rlt_bool_false by lra. now rewrite Z.add_0_r.
Qed.
Lemma wsum_dcub x : in_dim g x -> wsum 3 1 g W x = / h * cubG dbsp x.
Proof.
  intros Hx. unfold wsum. rewrite phi_window by (auto; lia). change (3 + 1)%Z with 4%Z.
  rewrite (zsum_ext 4 _ (fun j => edbsp j (lamR g x) * delR g x * W (cellR g x + j)%Z)).
  2: { intros j Hj. rewrite wR_3_1 by lia. reflexivity. }
  rewrite zsum_4. unfold cubG, cub.
  change (lamR g x) with (lamC g (cellR g x) x). pose proof (lam_inside x Hx) as Hl.
  unfold edbsp. rewrite !Rlt_bool_false by lra. rewrite Z.add_0_r.
  assert (E : delR g x = / h).
  { unfold h, g. cbn. pose proof hpos as Hh. unfold h in Hh. apply gsize_IZR in Hg as Hn.
    destruct Hg as [_ Hab]; cbn in *. field. lra. }
  rewrite E. ring.
Qed.

Lemma cub_node w c : joins w -> (0 <= c < gsize g - 1)%Z -> cubG w (gnode g c) = w 0%Z 0 * W c + w 1%Z 0 * W (c + 1)%Z + w 2%Z 0 * W (c + 2)%Z.
Proof.
  intros J Hc. destruct J as (J0 & J1 & J2 & J3 & J4).
  rewrite (glue_any g (cubG w) (cub w) Hg) with (c := c).
  - unfold cub. rewrite lamC_self, J4. ring.
  - reflexivity.
  - intros; apply cub_match; auto. repeat split; auto.
  - split; [lia|]. split; intros; [lra|]. apply Rlt_le. apply gnode_step; auto.
Qed.
Lemma cub_last w : joins w -> cubG w (gnode g (gsize g - 1)) =
  w 1%Z 1 * W (n - 1)%Z + w 2%Z 1 * W n + w 3%Z 1 * W (n + 1)%Z.
Proof.
  intros (J0 & J1 & J2 & J3 & J4). destruct Hg as [Hn _].
  rewrite (glue_any g (cubG w) (cub w) Hg) with (c := (n - 2)%Z).
  - unfold cub. replace (gsize g - 1)%Z with (n - 2 + 1)%Z by (cbn; lia).
    rewrite lamC_next by (auto; cbn in *; lia). rewrite J0.
    replace (n - 2 + 1)%Z with (n - 1)%Z by lia. replace (n - 2 + 2)%Z with n by lia.
    replace (n - 2 + 3)%Z with (n + 1)%Z by lia. ring.
  - reflexivity.
  - intros; apply cub_match; auto. repeat split; auto.
  - assert (Hn2 : (2 <= n)%Z) by exact Hn. assert (Hs : gsize g = n) by reflexivity.
    split; [lia|]. split; intros; [|lia]. apply gnode_le; auto; lia.
Qed.
End C2.

Lemma derive_local (F G : R -> R) (x m : R) e : 0 < e -> (forall t, x - e < t < x + e -> F t = G t) -> is_derive G x m -> is_derive F x m.
Proof.
  intros He H HG. apply (is_derive_ext_loc G); auto. exists (mkposreal e He). intros y Hy.
  symmetry. apply H. apply Rabs_def2 in Hy. cbn in Hy. unfold minus, plus, opp in Hy; cbn in Hy. lra.
Qed.
Lemma right_slope_local (F G : R -> R) (x m : R) e : 0 < e -> (forall t, x <= t < x + e -> F t = G t) -> is_derive G x m -> right_slope F x m.
Proof.
  intros He H HG. apply derive_slopes in HG as [_ HG]. intros eps Heps. destruct (HG eps Heps) as [d [Hd Hs]].
  exists (Rmin d e). split; [now apply Rmin_glb_lt|]. intros h Hh. pose proof (Rmin_l d e). pose proof (Rmin_r d e).
  rewrite !H by lra. apply Hs. lra.
Qed.
Lemma left_slope_local (F G : R -> R) (x m : R) e : 0 < e -> (forall t, x - e < t <= x -> F t = G t) -> is_derive G x m -> left_slope F x m.
Proof.
  intros He H HG. apply derive_slopes in HG as [HG _]. intros eps Heps. destruct (HG eps Heps) as [d [Hd Hs]].
  exists (Rmin d e). split; [now apply Rmin_glb_lt|]. intros h Hh. pose proof (Rmin_l d e). pose proof (Rmin_r d e).
  rewrite !H by lra. apply Hs. lra.
Qed.

Lemma cubG_C2 a b n W F : valid_dim (Unif a b n) -> (forall t, a <= t <= b -> F t = cubG a b n W bsp t) ->
  exists F1 F2, twice_differentiable a b F F1 F2 /\
    F2 a = (IZR n - 1) / (b - a) * ((IZR n - 1) / (b - a)) * (W 0%Z - 2 * W 1%Z + W 2%Z) /\
    F2 b = (IZR n - 1) / (b - a) * ((IZR n - 1) / (b - a)) * (W (n - 1)%Z - 2 * W n + W (n + 1)%Z).
Proof.
  intros Hg HF. set (h := (b - a) / (IZR n - 1)).
  assert (Hh : 0 < h) by exact (unif_step a b n Hg).
  assert (Ei : (IZR n - 1) / (b - a) = / h).
  { unfold h. apply gsize_IZR in Hg as Hn. destruct Hg as [_ Hab]; cbn in *. field. lra. }
  assert (Hab : a < b) by apply Hg.
  exists (fun x => / h * cubG a b n W dbsp x), (fun x => / h * (/ h * cubG a b n W ddbsp x)).
  assert (D1 : forall x, is_derive (cubG a b n W bsp) x (/ h * cubG a b n W dbsp x)).
  { intros. apply cubG_derive; auto using joins_bsp, joins_dbsp, bsp_derive. }
  assert (D2 : forall x, is_derive (fun x => / h * cubG a b n W dbsp x) x (/ h * (/ h * cubG a b n W ddbsp x))).
  { intros. apply is_derive_scal. apply cubG_derive; auto using joins_ddbsp, joins_dbsp, dbsp_derive. }
  split; [|split].
  - split; [|split; [|split; [|split; [|split]]]].
    + intros x Hx. rewrite <- !is_derive_Reals. split; auto.
      apply (derive_local F _ x _ (Rmin (x - a) (b - x))) with (3 := D1 x).
      * apply Rmin_glb_lt; lra.
      * intros t Ht. apply HF. pose proof (Rmin_l (x - a) (b - x)). pose proof (Rmin_r (x - a) (b - x)). lra.
    + apply (right_slope_local F _ a _ (b - a)) with (3 := D1 a); [lra|]. intros; apply HF; lra.
    + apply derive_slopes, D2.
    + apply (left_slope_local F _ b _ (b - a)) with (3 := D1 b); [lra|]. intros; apply HF; lra.
    + apply derive_slopes, D2.
    + intros x. apply continuity_pt_scal, continuity_pt_scal. now apply cubG_continuous.
  - assert (Hn : (0 <= 0 < gsize (Unif a b n) - 1)%Z) by (destruct Hg; lia).
    pose proof (cub_node a b n W Hg ddbsp 0 joins_ddbsp Hn) as E.
    change (gnode (Unif a b n) 0) with (glo (Unif a b n)) in E. rewrite glo_unif in E.
    rewrite Ei, E. cbn [ddbsp Z.add]. ring.
  - pose proof (cub_last a b n W Hg ddbsp joins_ddbsp) as E.
    change (gnode (Unif a b n) (gsize (Unif a b n) - 1)) with (ghi (Unif a b n)) in E. rewrite ghi_unif in E by auto.
    rewrite Ei, E. cbn [ddbsp Z.add]. ring.
Qed.

(** Along any coordinate, over the domain, for any coefficients. *)
Lemma slice_cub mode g1 a b n g2 comps (C : arr R) p1 p2 suf F :
  let grid := g1 ++ Unif a b n :: g2 in
  valid_grid grid -> all_uniform grid -> coefs_ok 3 grid comps C -> inb comps suf = true ->
  in_domain g1 p1 -> in_domain g2 p2 ->
  (forall t, a <= t <= b -> value_cubic mode grid comps C (p1 ++ t :: p2) suf (F t)) ->
  forall t, a <= t <= b ->
    F t = cubG a b n (slice 3 g1 g2 (zeros g1) (zeros g2) (fun idx => acell C (idx ++ suf)) p1 p2) bsp t.
Proof.
  intros grid Hv HU HC Hs H1 H2 HF t Ht.
  assert (Hg : valid_dim (Unif a b n)) by (now apply Forall_elt in Hv).
  pose proof (in_domain_length _ _ H1) as L1. pose proof (in_domain_length _ _ H2) as L2.
  assert (Hd : in_dim (Unif a b n) t) by (unfold in_dim; rewrite glo_unif, ghi_unif; auto).
  specialize (HF t Ht). apply (proj1 (value_cubic_at _ _ _ _ _ _ _)) in HF. apply value_at_none in HF; auto.
  2: { right; auto. } 2: { unfold grid. rewrite !app_length. cbn. lia. }
  rewrite xpoint_inside in HF. 2: { apply Forall2_app; auto. }
  rewrite HF. unfold grid. rewrite zeros_app. unfold zeros at 2. cbn [map]. rewrite VR_slice by (auto using zeros_length).
  fold (zeros g2). rewrite <- wsum_cub by auto. reflexivity.
Qed.

Theorem cubic_C2 mode g1 a b n g2 comps (C : arr R) p1 p2 suf F :
  let grid := g1 ++ Unif a b n :: g2 in
  valid_grid grid -> all_uniform grid -> coefs_ok 3 grid comps C -> inb comps suf = true ->
  in_domain g1 p1 -> in_domain g2 p2 ->
  (forall t, a <= t <= b -> value_cubic mode grid comps C (p1 ++ t :: p2) suf (F t)) ->
  exists F1 F2, twice_differentiable a b F F1 F2.
Proof.
  intros grid Hv HU HC Hs H1 H2 HF.
  assert (Hg : valid_dim (Unif a b n)) by (now apply Forall_elt in Hv).
  destruct (cubG_C2 a b n (slice 3 g1 g2 (zeros g1) (zeros g2) (fun idx => acell C (idx ++ suf)) p1 p2) F) as [F1 [F2 [H _]]]; auto.
  - exact (slice_cub mode g1 a b n g2 comps C p1 p2 suf F Hv HU HC Hs H1 H2 HF).
  - eauto.
Qed.

Lemma slope_unique_r f x m m' : right_slope f x m -> right_slope f x m' -> m = m'.
Proof.
  intros H H'. destruct (Req_dec m m') as [E|E]; auto. exfalso.
  pose proof (Rabs_pos_lt (m - m') ltac:(lra)) as P.
  destruct (H (Rabs (m - m') / 2) ltac:(lra)) as [d [Hd D]]. destruct (H' (Rabs (m - m') / 2) ltac:(lra)) as [d' [Hd' D']].
  set (h := Rmin d d' / 2). pose proof (Rmin_l d d'). pose proof (Rmin_r d d'). pose proof (Rmin_glb_lt d d' 0 Hd Hd').
  specialize (D h ltac:(unfold h; lra)). specialize (D' h ltac:(unfold h; lra)).
  set (q := (f (x + h) - f x) / h) in *. unfold Rabs in *. repeat destruct Rcase_abs; lra.
Qed.
Lemma slope_unique_l f x m m' : left_slope f x m -> left_slope f x m' -> m = m'.
Proof.
  intros H H'. destruct (Req_dec m m') as [E|E]; auto. exfalso.
  pose proof (Rabs_pos_lt (m - m') ltac:(lra)) as P.
  destruct (H (Rabs (m - m') / 2) ltac:(lra)) as [d [Hd D]]. destruct (H' (Rabs (m - m') / 2) ltac:(lra)) as [d' [Hd' D']].
  set (h := Rmin d d' / 2). pose proof (Rmin_l d d'). pose proof (Rmin_r d d'). pose proof (Rmin_glb_lt d d' 0 Hd Hd').
  specialize (D h ltac:(unfold h; lra)). specialize (D' h ltac:(unfold h; lra)).
  set (q := (f x - f (x - h)) / h) in *. unfold Rabs in *. repeat destruct Rcase_abs; lra.
Qed.

(** The second derivative at the ends is determined by F. *)
Lemma twice_unique a b F F1 F2 G1 G2 : a < b -> twice_differentiable a b F F1 F2 -> twice_differentiable a b F G1 G2 ->
  F2 a = G2 a /\ F2 b = G2 b.
Proof.
  intros Hab (H1 & H2 & H3 & H4 & H5 & _) (K1 & K2 & K3 & K4 & K5 & _).
  assert (E : forall x, a <= x <= b -> F1 x = G1 x).
  { intros x Hx. destruct (Req_dec x a) as [->|]; [eapply slope_unique_r; eauto|].
    destruct (Req_dec x b) as [->|]; [eapply slope_unique_l; eauto|].
    destruct (H1 x ltac:(lra)) as [D _]. destruct (K1 x ltac:(lra)) as [D' _]. eapply uniqueness_limite; eauto. }
  split.
  - apply (slope_unique_r F1 a); auto. intros eps He. destruct (K3 eps He) as [d [Hd D]].
    exists (Rmin d (b - a)). split; [apply Rmin_glb_lt; lra|]. intros h Hh.
    pose proof (Rmin_l d (b - a)). pose proof (Rmin_r d (b - a)). rewrite !E by lra. apply D; lra.
  - apply (slope_unique_l F1 b); auto. intros eps He. destruct (K5 eps He) as [d [Hd D]].
    exists (Rmin d (b - a)). split; [apply Rmin_glb_lt; lra|]. intros h Hh.
    pose proof (Rmin_l d (b - a)). pose proof (Rmin_r d (b - a)). rewrite !E by lra. apply D; lra.
Qed.

(** The values at the nodes and the end conditions characterise the coefficients. *)
Theorem natural_spline_unique mode a b n (V C c : arr R) F :
  valid_dim (Unif a b n) -> ashape V = [n] -> ashape c = [(n + 2)%Z] ->
  filter_cubic [Unif a b n] V None = Ok (VArr C, None) ->
  (forall t, a <= t <= b -> value_cubic mode [Unif a b n] [] c [t] [] (F t)) ->
  ((forall i, (0 <= i < n)%Z -> F (gnode (Unif a b n) i) = acell V [i]) /\
   (exists F1 F2, twice_differentiable a b F F1 F2 /\ F2 a = 0 /\ F2 b = 0))
  <-> aeq c C.
Proof.
  intros Hg HV Hc E HF.
  assert (Hab : a < b) by apply Hg. assert (Hn : (2 <= n)%Z) by apply Hg.
  destruct (filter_1d_unique a b n V Hg HV) as [C1 (E1 & S1 & U)]. rewrite E in E1. inversion E1; subst C1.
  set (W := fun i => acell c [i]).
  assert (Hvg : valid_grid [Unif a b n]) by (constructor; auto).
  assert (HU : all_uniform [Unif a b n]) by (constructor; auto).
  assert (HCo : coefs_ok 3 [Unif a b n] [] c).
  { split; [|now left]. cbn. rewrite Hc. unfold csize. cbn. f_equal. lia. }
  pose proof (slice_cub mode [] a b n [] [] c [] [] [] F) as EF. cbn zeta in EF. cbn [app] in EF.
  specialize (EF Hvg HU HCo eq_refl (Forall2_nil _) (Forall2_nil _) HF).
  assert (EW : forall t, a <= t <= b -> F t = cubG a b n W bsp t).
  { intros t Ht. rewrite EF by auto. reflexivity. }
  destruct (cubG_C2 a b n W F Hg EW) as [F1 [F2 (T & Ta & Tb)]].
  assert (Hq : 0 < (IZR n - 1) / (b - a)).
  { apply gsize_IZR in Hg. cbn in Hg. apply Rdiv_lt_0_compat; lra. }
  assert (Hnode : forall i, (0 <= i < n)%Z -> F (gnode (Unif a b n) i) = (W i + 4 * W (i + 1)%Z + W (i + 2)%Z) / 6).
  { intros i Hi. pose proof (gnode_in_dim (Unif a b n) i Hg Hi) as D. unfold in_dim in D. rewrite glo_unif, ghi_unif in D by auto.
    rewrite EW by auto. rewrite <- wsum_cub by (auto; unfold in_dim; rewrite glo_unif, ghi_unif; auto).
    unfold wsum. apply phi3_node_sum; auto. }
  transitivity (natural_coefs n (fun i => acell V [i]) W).
  - split.
    + intros [HN [G1 [G2 (TG & Za & Zb)]]]. destruct (twice_unique a b F F1 F2 G1 G2 Hab T TG) as [Qa Qb].
      split; [|split].
      * intros i Hi. rewrite <- Hnode by auto. now apply HN.
      * rewrite Za, Ta in Qa. apply Rmult_integral in Qa as [Qa|Qa]; auto. exfalso. nra.
      * rewrite Zb, Tb in Qb. apply Rmult_integral in Qb as [Qb|Qb]; auto. exfalso. nra.
    + intros (N1 & N2 & N3). split.
      * intros i Hi. rewrite Hnode by auto. now apply N1.
      * exists F1, F2. split; auto. rewrite Ta, Tb, N2, N3. split; ring.
  - rewrite U. split.
    + intros H. split; [congruence|]. rewrite Hc. intros [|i [|]] Hi; cbn in Hi; try lia. apply H. lia.
    + intros [_ H] i Hi. apply H. rewrite Hc. cbn. lia.
Qed.

(** For prefiltered coefficients the second derivative vanishes at the ends. *)
Theorem filtered_C2_natural mode a b n (V C : arr R) F :
  valid_dim (Unif a b n) -> ashape V = [n] ->
  filter_cubic [Unif a b n] V None = Ok (VArr C, None) ->
  (forall t, a <= t <= b -> value_cubic mode [Unif a b n] [] C [t] [] (F t)) ->
  exists F1 F2, twice_differentiable a b F F1 F2 /\ F2 a = 0 /\ F2 b = 0.
Proof.
  intros Hg HV E HF. eapply natural_spline_unique; eauto.
  - destruct (filter_1d_unique a b n V Hg HV) as [C1 (E1 & S1 & U)]. rewrite E in E1. now inversion E1; subst C1.
  - split; auto.
Qed.

(** Two previous contents give the same outcome (also when the call fails). *)
Theorem inplace_outcome {T} {NT : Num T} grid (D C0 C1 : arr T) :
  grid <> [] -> List.Forall (fun m => (1 <= m)%Z) (firstn (length grid) (ashape D)) ->
  (length grid <= length (ashape D) <= length grid + 1)%nat ->
  ashape C0 = coef_shape (length grid) (ashape D) -> ashape C1 = ashape C0 ->
  match filter_cubic grid D (Some C0), filter_cubic grid D (Some C1) with
  | Ok (r, Some C'), Ok (r', Some C'') => r = VNone /\ r' = VNone /\ ashape C' = ashape C0 /\ aeq C' C''
  | Err e, Err e' => e = e'
  | _, _ => False
  end.
Proof.
  intros Hg HF HL H0 H1. pose proof (filter_inplace_garbage grid D C0 C1 Hg HF HL H0 H1) as G.
  unfold filter_cubic.
  destruct (filter_inplace grid D C0) as [C'|e], (filter_inplace grid D C1) as [C''|e']; cbn in *; tauto.
Qed.
