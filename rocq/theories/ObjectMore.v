(** CubicSplines, LinearSpline, LinearSplines, legacy functions over the reals (C48, C55, C56). *)
From Coq Require Import ZArith List Bool Reals Lra Lia.
From Verif Require Import Base BaseFacts SplineModel PrefilterModel Spec EvalGeneric EvalMaster EvalProps RSum EvalValue EvalR EvalRProps EvalCases
  PrefilterR PrefilterProps ArrayModel ArrayFacts SpecBasis SpecGrad GradModel GradProps ObjectModel SpecObject ObjectProps ObjectR.
Import ListNotations.
Open Scope Z_scope.

Lemma zlen_snoc {A} (l : list A) x : zlen (l ++ [x]) = zlen l + 1.
Proof. unfold zlen. rewrite app_length. cbn. lia. Qed.
Lemma adim_last {T} (a : arr T) sh n : ashape a = sh ++ [n] -> adim a (andim a - 1) = Ok n.
Proof.
  intros H. unfold andim. rewrite H, adim_ok by (rewrite H, zlen_snoc; unfold zlen; lia). rewrite H, zlen_snoc. f_equal.
  replace (Z.to_nat (zlen sh + 1 - 1)) with (length sh) by (unfold zlen; lia). apply nth_app_last.
Qed.

(** A call with one point: [ravel] of the only row. *)
Lemma ravel_row ns (o : arr R) k v : ashape o = [1; ns] -> 0 <= k < ns -> acell o [0; k] = v ->
  point_gives (ravel_val (VArr o)) [k] v.
Proof.
  intros S Hk Ho. unfold ravel_val. rewrite S.
  destruct (reshape_order o [zprod [1; ns]]) as (a & E & HS & H). { rewrite S. unfold zprod; cbn [fold_right]; lia. }
  rewrite E. cbn [bind point_gives]. split.
  - rewrite <- Ho. apply H; rewrite ?S; unfold zprod, position; cbn [fold_right inb combine fold_left fst snd]; lia.
  - exists (zprod [1; ns]). split; auto. unfold zprod; cbn [fold_right]; lia.
Qed.

(** *** CubicSplines *)

Lemma mcs_eval g s C ns pt k v : mcs_a s = lower g -> mcs_b s = upper g -> mcs_orders s = counts g -> mcs_coeffs s = Some C ->
  coefs_ok 3 (unif_grid g) [ns] C -> length pt = length g -> 0 <= k < ns -> value_cubic None (unif_grid g) [ns] C pt [k] v -> mcs_gives g s ns pt k v.
Proof.
  intros E1 E2 E3 E4 HC HL Hk H junk.
  assert (HR : rows_give (fun p => r <- mcs_interpolate junk s (P2 p) false ;; Ok (fst r)) (zlen g) [ns] pt [k] v).
  { intros points N n Hp Hn Hr. unfold mcs_interpolate. rewrite !adim_ok by (rewrite Hp; unfold zlen; cbn; lia). rewrite Hp. cbn [bind nth Z.to_nat Pos.to_nat Pos.iter_op].
    change (nth (Z.to_nat 1) [N; zlen g] 0) with (zlen g). rewrite E1, lower_len, Z.eqb_refl. cbn [negb]. rewrite all_finite_R. cbn [negb]. rewrite E4.
    rewrite (adim_last C _ ns (proj1 HC)). cbn [bind]. rewrite E2, E3, obj_grid_ok. cbn [bind].
    destruct (value_cubic_rows_out g [ns] C pt [k] v HC) with (points := points) (out := mkArr [N; ns] junk) (N := N) (n := n) as (o & E & S & F); auto.
    - cbn. lia.
    - change (nth (Z.to_nat 0) [N; zlen g] 0) with N. rewrite E. cbn [bind snd fst]. eauto. }
  assert (Hz : zlen pt = zlen g) by (unfold zlen; lia).
  split; [|split]; auto.
  unfold mcs_call. destruct (HR (atleast_2d pt) 1 0) as (o & E & S & F); [cbn; now rewrite Hz|lia|rewrite <- Hz; apply atleast_row|].
  destruct (mcs_interpolate junk s (P2 (atleast_2d pt)) false) as [[r dr]|e]; [|discriminate]. cbn [bind fst] in E |- *. inversion E; subst r.
  now apply (ravel_row ns).
Qed.

Lemma mcs_new_ok nan g sh ns (V : arr R) : valid_grid (unif_grid g) -> (1 <= length g <= 4)%nat ->
  ashape V = sh ++ [ns] -> 0 <= ns -> entries (ashape V) = entries (counts g ++ [ns]) ->
  exists s W C, mcs_new nan (lower g) (upper g) (counts g) (Some V) = Ok s /\ areshape V (counts g ++ [ns]) = Ok W /\
    mcs_a s = lower g /\ mcs_b s = upper g /\ mcs_orders s = counts g /\ mcs_coeffs s = Some C /\
    coefs_ok 3 (unif_grid g) [ns] C /\
    forall idx k, inb (map (csize 3) (unif_grid g)) idx = true -> 0 <= k < ns ->
      acell C (idx ++ [k]) = PF (counts g) (fun r => acell W (r ++ [k])) idx.
Proof.
  intros Hv Hd HS Hns HV. destruct (reshape_order V (counts g ++ [ns]) HV) as (W & EW & HW).
  destruct (filter_mcoeffs_R nan g ns W Hv Hd (proj1 HW) Hns) as (C & EC & HC & FC).
  exists (mkMCS (lower g) (upper g) (counts g) (Some W) (Some C)), W, C.
  unfold mcs_new. rewrite upper_len, lower_len, counts_len, Z.eqb_refl. cbn [negb orb].
  unfold mcs_set. cbn [mcs_orders mcs_a mcs_b mcs_coeffs]. rewrite (adim_last V sh ns HS). cbn [bind]. rewrite EW. cbn [bind].
  rewrite all_finite_R. cbn [negb]. rewrite EC. cbn [bind]. repeat (split; [reflexivity|]). auto.
Qed.

Theorem cubics_object nan g sh ns (V : arr R) : valid_grid (unif_grid g) -> (1 <= length g <= 4)%nat ->
  ashape V = sh ++ [ns] -> 0 <= ns -> entries (ashape V) = entries (counts g ++ [ns]) ->
  exists s W C, mcs_new nan (lower g) (upper g) (counts g) (Some V) = Ok s /\ same_order V (counts g ++ [ns]) W /\
    filter_cubic (unif_grid g) W None = Ok (VArr C, None) /\
    forall pt k v, length pt = length g -> 0 <= k < ns -> value_cubic None (unif_grid g) [ns] C pt [k] v -> mcs_gives g s ns pt k v.
Proof.
  intros Hv Hd HS Hns HV. destruct (mcs_new_ok nan g sh ns V Hv Hd HS Hns HV) as (s & W & C & E & EW & E1 & E2 & E3 & E4 & HC & FC).
  destruct (reshape_order V (counts g ++ [ns]) HV) as (W' & EW' & HW). rewrite EW in EW'. inversion EW'; subst W'.
  assert (HVo : values_ok (unif_grid g) [ns] W) by (split; [rewrite gsize_counts; apply HW|right; eauto]).
  destruct (filter_call (unif_grid g) [ns] W Hv (all_unif g)) as (C0 & EC0 & HC0 & FC0); auto.
  { unfold supported_dim. now rewrite unif_grid_length. }
  exists s, W, C0. split; auto. split; auto. split; auto. intros pt k v Hp Hk H.
  assert (Hin : inb [ns] [k] = true) by (cbn; lia).
  apply (mcs_eval g s C); auto. apply (cubic_transfer g [ns] C0 C); auto. intros idx Hi. rewrite FC0, FC by auto. now rewrite gsize_counts.
Qed.

Theorem cubics_object_nodes nan g sh ns (V : arr R) : valid_grid (unif_grid g) -> (1 <= length g <= 4)%nat ->
  ashape V = sh ++ [ns] -> 0 <= ns -> entries (ashape V) = entries (counts g ++ [ns]) ->
  exists s, mcs_new nan (lower g) (upper g) (counts g) (Some V) = Ok s /\
    forall idx k j, inb (counts g) idx = true -> 0 <= k < ns -> inb (ashape V) j = true -> position (ashape V) j = position (counts g ++ [ns]) (idx ++ [k]) ->
      mcs_gives g s ns (node_at (unif_grid g) idx) k (acell V j).
Proof.
  intros Hv Hd HS Hns HV. destruct (cubics_object nan g sh ns V Hv Hd HS Hns HV) as (s & W & C & E & HW & EC & H). exists s. split; auto.
  intros idx k j Hi Hk Hj Hp. assert (HVo : values_ok (unif_grid g) [ns] W) by (split; [rewrite gsize_counts; apply HW|right; eauto]).
  assert (Hin : inb [ns] [k] = true) by (cbn; lia).
  apply H; auto. { rewrite node_at_length, unif_grid_length; auto. now rewrite gsize_counts. }
  destruct (filter_interpolates None (unif_grid g) [ns] W idx [k] Hv (all_unif g)) as (C' & EC' & HV'); auto.
  { unfold supported_dim. now rewrite unif_grid_length. } { now rewrite gsize_counts. }
  rewrite EC in EC'. inversion EC'; subst C'. rewrite <- (proj2 HW (idx ++ [k]) j); auto. now apply inb_app_r.
Qed.

(** *** LinearSpline, LinearSplines *)

Lemma ls_eval m multi g s W ns pt suf v st : ls_multi s = multi -> ls_smin s = lower g -> ls_smax s = upper g -> ls_orders s = counts g -> ls_values s = Some st -> read_store m st = Ok W ->
  coefs_ok 1 (unif_grid g) (ls_comps multi ns) W -> length pt = length g -> inb (ls_comps multi ns) suf = true ->
  value_linear None (unif_grid g) (ls_comps multi ns) W pt suf v -> ls_gives m g s (ls_comps multi ns) pt suf v.
Proof.
  intros E0 E1 E2 E3 E4 E5 HC HL Hs H.
  assert (HR : rows_give (fun p => ls_interpolate m s (P2 p)) (zlen g) (ls_comps multi ns) pt suf v).
  { intros points N n Hp Hn Hr. unfold ls_interpolate. rewrite E1, E2, E3, E4, obj_grid_ok. cbn [bind]. rewrite E5. cbn [bind].
    destruct (value_linear_rows _ _ _ _ _ _ H points N n) as (o & E & S & F); auto. rewrite E. cbn [bind fst]. eauto. }
  assert (Hz : zlen pt = zlen g) by (unfold zlen; lia).
  split; [|split; [|split]]; auto.
  - unfold ls_interpolate. rewrite E1, E2, E3, E4, obj_grid_ok. cbn [bind]. rewrite E5. cbn [bind].
    destruct (value_linear_rows _ _ _ _ _ _ H (atleast_2d pt) 1 0) as (o & E & S & F); [cbn; now rewrite Hz|lia|rewrite <- Hz; apply atleast_row|].
    destruct (point_from_row 1 g _ W pt suf v o HC) as (r & Er & Hr); auto. unfold eval_linear. rewrite Er. exact Hr.
  - unfold ls_call. destruct (HR (atleast_2d pt) 1 0) as (o & E & S & F); [cbn; now rewrite Hz|lia|rewrite <- Hz; apply atleast_row|].
    rewrite E. cbn [bind]. rewrite E0. destruct multi; cbn [ls_comps] in *.
    + destruct suf as [|k [|? ?]]; try discriminate; [|cbn in Hs; lia]. apply (ravel_row ns); auto. cbn in Hs. lia.
    + destruct suf; [|discriminate]. unfold first_row. rewrite S. exact F.
Qed.

Lemma ls_new_ok (m : memory R) (multi : bool) g sh ns id : let V := nd_arr (m id) in
  ashape V = (if multi then sh ++ [ns] else ashape V) -> entries (ashape V) = entries (counts g ++ ls_comps multi ns) ->
  exists s W st, ls_new m multi (lower g) (upper g) (counts g) (Some id) = Ok s /\ areshape V (counts g ++ ls_comps multi ns) = Ok W /\
    ls_multi s = multi /\ ls_smin s = lower g /\ ls_smax s = upper g /\ ls_orders s = counts g /\ ls_values s = Some st /\ read_store m st = Ok W.
Proof.
  intros V HS HV. destruct (reshape_order V (counts g ++ ls_comps multi ns) HV) as (W & EW & HW).
  unfold ls_new, ls_set. cbn [ls_multi ls_orders ls_smin ls_smax].
  assert (Esh : (if multi then n_x <- adim V (andim V - 1) ;; Ok (counts g ++ [n_x]) else Ok (counts g)) = Ok (counts g ++ ls_comps multi ns)).
  { destruct multi; cbn [ls_comps]; [now rewrite (adim_last V sh ns HS)|now rewrite app_nil_r]. }
  cbv zeta. fold V. rewrite Esh. cbn [bind]. rewrite EW. cbn [bind].
  eexists _, W, _. split; [reflexivity|]. split; [auto|]. repeat (split; [reflexivity|]). destruct (nd_plain (m id)); cbn [read_store]; auto.
Qed.

Theorem linear_object (m : memory R) (multi : bool) g sh ns id : let V := nd_arr (m id) in
  valid_grid (unif_grid g) -> ashape V = (if multi then sh ++ [ns] else ashape V) -> 0 <= ns ->
  entries (ashape V) = entries (counts g ++ ls_comps multi ns) ->
  exists s W, ls_new m multi (lower g) (upper g) (counts g) (Some id) = Ok s /\ same_order V (counts g ++ ls_comps multi ns) W /\
    forall pt suf v, length pt = length g -> inb (ls_comps multi ns) suf = true ->
      value_linear None (unif_grid g) (ls_comps multi ns) W pt suf v -> ls_gives m g s (ls_comps multi ns) pt suf v.
Proof.
  intros V Hv HS Hns HV. destruct (ls_new_ok m multi g sh ns id HS HV) as (s & W & st & E & EW & E0 & E1 & E2 & E3 & E4 & E5).
  destruct (reshape_order V (counts g ++ ls_comps multi ns) HV) as (W' & EW' & HW). unfold V in EW'. rewrite EW in EW'. inversion EW'; subst W'.
  exists s, W. split; auto. split; auto. intros pt suf v Hp Hs H. eapply ls_eval; eauto.
  split. { rewrite csize1_map, gsize_counts. apply HW. } destruct multi; [right; exists ns; auto|now left].
Qed.

Theorem linear_object_nodes (m : memory R) (multi : bool) g sh ns id : let V := nd_arr (m id) in
  valid_grid (unif_grid g) -> ashape V = (if multi then sh ++ [ns] else ashape V) -> 0 <= ns ->
  entries (ashape V) = entries (counts g ++ ls_comps multi ns) ->
  exists s, ls_new m multi (lower g) (upper g) (counts g) (Some id) = Ok s /\
    forall idx suf j, inb (counts g) idx = true -> inb (ls_comps multi ns) suf = true -> inb (ashape V) j = true ->
      position (ashape V) j = position (counts g ++ ls_comps multi ns) (idx ++ suf) ->
      ls_gives m g s (ls_comps multi ns) (node_at (unif_grid g) idx) suf (acell V j).
Proof.
  intros V Hv HS Hns HV. destruct (linear_object m multi g sh ns id Hv HS Hns HV) as (s & W & E & HW & H). exists s. split; auto.
  intros idx suf j Hi Hs Hj Hp. fold V in HW. apply H; auto. { rewrite node_at_length, unif_grid_length; auto. now rewrite gsize_counts. }
  rewrite <- (proj2 HW (idx ++ suf) j); auto; [|now apply inb_app_r].
  apply eval_linear_at_node; auto; [|now rewrite gsize_counts].
  split. { rewrite csize1_map, gsize_counts. apply HW. } destruct multi; [right; exists ns; auto|now left].
Qed.

(** *** Five and more dimensions *)
Theorem cubic_five_dims g (V : arr R) junk p values wd : (5 <= length g)%nat -> entries (ashape V) = entries (counts g) ->
  exists s, cs_new (lower g) (upper g) (counts g) (Some V) = Ok s /\ forall r, cs_interpolate junk s p values wd <> Ok r.
Proof.
  intros Hd HV. destruct (reshape_order V (counts g) HV) as (W & EW & HW).
  destruct (reshape_order W (counts g)) as (W' & EW' & HW'); [now rewrite (proj1 HW)|].
  unfold cs_new. rewrite upper_len, lower_len, counts_len, Z.eqb_refl. cbn [negb orb].
  unfold cs_set. cbn [cs_orders cs_a cs_b cs_coeffs]. rewrite all_finite_R. cbn [negb]. rewrite EW.
  rewrite filter_coeffs_eq, EW'. cbn [bind]. unfold filter_data.
  replace ((zlen (map dinvR g) <? 1) || (4 <? zlen (map dinvR g))) with true by (unfold zlen; rewrite map_length; lia).
  eexists. split; [reflexivity|]. intros r. unfold cs_interpolate. cbn [cs_a cs_b cs_orders cs_coeffs]. rewrite obj_grid_ok. cbn [bind].
  destruct (negb _); [discriminate|]. destruct wd; [discriminate|]. destruct p as [x|a]; [discriminate|].
  destruct (ashape a) as [|N [|d [|? ?]]]; try discriminate. destruct (negb _); discriminate.
Qed.

Lemma filter_mcoeffs_five nan g ns (V : arr R) : (5 <= length g)%nat -> ashape V = counts g ++ [ns] -> 0 <= ns ->
  filter_mcoeffs nan (lower g) (upper g) (counts g) V =
  foldM (fun c i => Ok (afill_comp c i nan)) (zrange ns) (azeros (map (fun i => i + 2) (counts g) ++ [ns])).
Proof.
  intros Hd HV Hns. unfold filter_mcoeffs. rewrite (adim_last V _ ns HV). cbn [bind]. apply foldM_ext. intros c i Hi. apply zrange_In in Hi.
  rewrite (acomp_ok V (counts g) ns i HV Hi). cbn [bind]. rewrite filter_coeffs_eq, areshape_ok by reflexivity. cbn [bind]. unfold filter_data.
  replace ((zlen (map dinvR g) <? 1) || (4 <? zlen (map dinvR g))) with true by (unfold zlen; rewrite map_length; lia).
  reflexivity.
Qed.

Theorem cubics_five_dims nan g ns (V V' : arr R) : (5 <= length g)%nat -> 0 <= ns ->
  ashape V = counts g ++ [ns] -> ashape V' = counts g ++ [ns] ->
  exists s s', mcs_new nan (lower g) (upper g) (counts g) (Some V) = Ok s /\ mcs_new nan (lower g) (upper g) (counts g) (Some V') = Ok s' /\
    forall junk p, mcs_call junk s p = mcs_call junk s' p.
Proof.
  intros Hd Hns HV HV'.
  assert (H : forall V : arr R, ashape V = counts g ++ [ns] -> exists s, mcs_new nan (lower g) (upper g) (counts g) (Some V) = Ok s /\
    mcs_a s = lower g /\ mcs_b s = upper g /\ mcs_orders s = counts g /\
    match foldM (fun c i => Ok (afill_comp c i nan)) (zrange ns) (azeros (map (fun i => i + 2) (counts g) ++ [ns])) with
    | Ok c => mcs_coeffs s = Some c | Err _ => False end).
  { clear V V' HV HV'. intros V HV. destruct (reshape_order V (counts g ++ [ns])) as (W & EW & HW); [now rewrite HV|].
    unfold mcs_new. rewrite upper_len, lower_len, counts_len, Z.eqb_refl. cbn [negb orb].
    unfold mcs_set. cbn [mcs_orders mcs_a mcs_b mcs_coeffs]. rewrite (adim_last V _ ns HV). cbn [bind]. rewrite EW. cbn [bind].
    rewrite all_finite_R. cbn [negb]. rewrite (filter_mcoeffs_five nan g ns W Hd (proj1 HW) Hns).
    destruct (foldM_zrange (fun (c : arr R) i => Ok (afill_comp c i nan)) (fun _ _ => True) ns (azeros (map (fun i => i + 2) (counts g) ++ [ns]))) as (c & Ec & _); eauto.
    rewrite Ec. cbn [bind]. eexists. split; [reflexivity|]. auto. }
  destruct (H V HV) as (s & E & E1 & E2 & E3 & E4), (H V' HV') as (s' & E' & E1' & E2' & E3' & E4').
  exists s, s'. split; auto. split; auto. intros junk.
  destruct (foldM _ _ _) as [c|]; [|contradiction].
  assert (HI : forall p, mcs_interpolate junk s p false = mcs_interpolate junk s' p false).
  { intros p. unfold mcs_interpolate. now rewrite E1, E2, E3, E4, E1', E2', E3', E4'. }
  intros p. unfold mcs_call. destruct p; now rewrite HI.
Qed.

Lemma inb_app_split sh1 sh2 : forall idx, inb (sh1 ++ sh2) idx = true -> exists i1 i2, idx = i1 ++ i2 /\ inb sh1 i1 = true /\ inb sh2 i2 = true.
Proof.
  induction sh1 as [|n sh1 IH]; intros idx H; cbn in H.
  - exists [], idx. auto.
  - destruct idx as [|i idx]; [discriminate|]. apply andb_prop in H as [H1 H2]. destruct (IH idx H2) as (i1 & i2 & -> & A & B).
    exists (i :: i1), i2. cbn. rewrite H1, A. auto.
Qed.
(** The coefficients are all [nan]. *)
Theorem cubics_five_nan nan g ns (V : arr R) : (5 <= length g)%nat -> 0 <= ns -> ashape V = counts g ++ [ns] ->
  exists s c, mcs_new nan (lower g) (upper g) (counts g) (Some V) = Ok s /\ mcs_coeffs s = Some c /\
    ashape c = map (fun i => i + 2) (counts g) ++ [ns] /\ forall idx, inb (ashape c) idx = true -> acell c idx = nan.
Proof.
  intros Hd Hns HV. destruct (reshape_order V (counts g ++ [ns])) as (W & EW & HW); [now rewrite HV|].
  set (sh := map (fun i => i + 2) (counts g)).
  destruct (foldM_zrange (fun (c : arr R) i => Ok (afill_comp c i nan)) (fun i c => ashape c = sh ++ [ns] /\
    forall idx, inb (sh ++ [ns]) idx = true -> last idx (-1) < i -> acell c idx = nan) ns (azeros (sh ++ [ns]))) as (c & Ec & Sc & Vc); auto.
  { split; [reflexivity|]. intros idx Hi. apply inb_app_split in Hi as (i1 & i2 & -> & _ & H2).
    destruct i2 as [|k [|? ?]]; cbn in H2; try discriminate; try (rewrite andb_false_r in H2; discriminate). rewrite last_last. lia. }
  { intros i c Hi [Sc Vc]. eexists. split; [reflexivity|]. split; [exact Sc|]. intros idx Hx HL. unfold afill_comp. cbn [acell].
    destruct (last idx (-1) =? i) eqn:El; auto. apply Vc; auto. lia. }
  exists (mkMCS (lower g) (upper g) (counts g) (Some W) (Some c)), c. split.
  - unfold mcs_new. rewrite upper_len, lower_len, counts_len, Z.eqb_refl. cbn [negb orb].
    unfold mcs_set. cbn [mcs_orders mcs_a mcs_b mcs_coeffs]. rewrite (adim_last V _ ns HV). cbn [bind]. rewrite EW. cbn [bind].
    rewrite all_finite_R. cbn [negb]. rewrite (filter_mcoeffs_five nan g ns W Hd (proj1 HW) Hns). fold sh. rewrite Ec. reflexivity.
  - split; [reflexivity|]. split; [exact Sc|]. intros idx Hi. rewrite Sc in Hi. apply Vc; auto.
    apply inb_app_split in Hi as (i1 & i2 & -> & _ & H2).
    destruct i2 as [|k [|? ?]]; cbn in H2; try discriminate; try (rewrite andb_false_r in H2; discriminate). rewrite last_last. lia.
Qed.

(** *** Legacy functions *)
Theorem legacy_one g (V : arr R) : valid_grid (unif_grid g) -> (1 <= length g <= 4)%nat -> entries (ashape V) = entries (counts g) ->
  exists C, filter_coeffs (lower g) (upper g) (counts g) V = Ok (Some C) /\
    forall idx j, inb (counts g) idx = true -> inb (ashape V) j = true -> position (ashape V) j = position (counts g) idx ->
    let pt := node_at (unif_grid g) idx in
    point_gives (eval_cubic_spline (lower g) (upper g) (counts g) C (P1 pt)) [] (acell V j) /\
    rows_give (fun p => r <- vec_eval_cubic_spline (lower g) (upper g) (counts g) C (P2 p) None ;; Ok (fst r)) (zlen g) [] pt [] (acell V j) /\
    (forall out, (forall p, ashape (out p) = firstn 1 (ashape p)) ->
       rows_give (fun p => r <- vec_eval_cubic_spline (lower g) (upper g) (counts g) C (P2 p) (Some (out p)) ;;
                           match r with (VNone, Some o) => Ok (VArr o) | _ => Err TypeErr end) (zlen g) [] pt [] (acell V j)).
Proof.
  intros Hv Hd HV. destruct (reshape_order V (counts g) HV) as (W & EW & HW). destruct (filter_coeffs_R g V W Hv Hd EW) as (C & EC & SC & FC).
  exists C. split; auto. intros idx j Hi Hj Hp pt.
  assert (HVo : values_ok (unif_grid g) [] W) by (split; [rewrite gsize_counts, app_nil_r; apply HW|now left]).
  assert (HC : coefs_ok 3 (unif_grid g) [] C) by (split; [now rewrite app_nil_r|now left]).
  assert (Hpt : length pt = length g) by (unfold pt; rewrite node_at_length, unif_grid_length; auto; now rewrite gsize_counts).
  assert (Hz : zlen pt = zlen g) by (unfold zlen; lia).
  assert (H : value_cubic None (unif_grid g) [] C pt [] (acell V j)).
  { destruct (filter_call (unif_grid g) [] W Hv (all_unif g)) as (C0 & EC0 & HC0 & FC0); auto. { unfold supported_dim. now rewrite unif_grid_length. }
    apply (cubic_transfer g [] C0 C); auto.
    - intros i Hin. rewrite FC0, app_nil_r, FC, gsize_counts by auto. pose proof (big_sizes _ Hv) as HB. rewrite gsize_counts in HB.
      apply PF_ext; auto; [|now rewrite <- gsize_counts, all2_csize]. intros ? _. now rewrite app_nil_r.
    - destruct (filter_interpolates None (unif_grid g) [] W idx [] Hv (all_unif g)) as (C' & EC' & HV'); auto.
      { unfold supported_dim. now rewrite unif_grid_length. } { now rewrite gsize_counts. }
      rewrite EC0 in EC'. inversion EC'; subst C'. rewrite app_nil_r in HV'. rewrite <- (proj2 HW idx j); auto. }
  assert (Hnd : andim C = zlen g). { unfold andim. rewrite SC. unfold zlen. rewrite map_length, unif_grid_length. reflexivity. }
  split; [|split].
  - unfold eval_cubic_spline. rewrite (get_grid_ok g) by auto. cbn [bind].
    destruct (value_cubic_rows _ _ _ _ _ _ H (atleast_2d pt) 1 0) as (o & E & S & F); [cbn; now rewrite Hz|lia|rewrite <- Hz; apply atleast_row|].
    destruct (point_from_row 3 g [] C pt [] (acell V j) o HC) as (r & Er & Hr); auto. unfold eval_cubic. rewrite Er. cbn [bind fst]. exact Hr.
  - intros points N n Hpp Hn Hr. unfold vec_eval_cubic_spline. rewrite (get_grid_ok g) by auto. cbn [bind].
    destruct (value_cubic_rows _ _ _ _ _ _ H points N n) as (o & E & S & F); auto. rewrite E. cbn [bind fst]. eauto.
  - intros out Ho points N n Hpp Hn Hr. unfold vec_eval_cubic_spline. rewrite (get_grid_ok g) by auto. cbn [bind].
    destruct (value_cubic_rows_out g [] C pt [] _ HC eq_refl H points (out points) N n) as (o & E & S & F); auto.
    { now rewrite Ho, Hpp. }
    rewrite E. cbn [bind snd]. eauto.
Qed.

Theorem legacy_many nan g ns (V : arr R) : valid_grid (unif_grid g) -> (1 <= length g <= 4)%nat -> ashape V = counts g ++ [ns] -> 1 <= ns ->
  exists C, filter_mcoeffs nan (lower g) (upper g) (counts g) V = Ok C /\
    forall idx k, inb (counts g) idx = true -> 0 <= k < ns ->
    let pt := node_at (unif_grid g) idx in
    point_gives (r <- eval_cubic_splines (lower g) (upper g) (counts g) C (P1 pt) None ;; Ok (fst r)) [k] (acell V (idx ++ [k])) /\
    rows_give (fun p => r <- eval_cubic_splines (lower g) (upper g) (counts g) C (P2 p) None ;; Ok (fst r)) (zlen g) [ns] pt [k] (acell V (idx ++ [k])).
Proof.
  intros Hv Hd HV Hns. destruct (filter_mcoeffs_R nan g ns V Hv Hd HV ltac:(lia)) as (C & EC & HC & FC).
  exists C. split; auto. intros idx k Hi Hk pt.
  assert (HVo : values_ok (unif_grid g) [ns] V) by (split; [rewrite gsize_counts; auto|right; exists ns; split; auto; lia]).
  assert (Hpt : length pt = length g) by (unfold pt; rewrite node_at_length, unif_grid_length; auto; now rewrite gsize_counts).
  assert (Hz : zlen pt = zlen g) by (unfold zlen; lia).
  assert (Hin : inb [ns] [k] = true) by (cbn; lia).
  assert (H : value_cubic None (unif_grid g) [ns] C pt [k] (acell V (idx ++ [k]))).
  { destruct (filter_call (unif_grid g) [ns] V Hv (all_unif g)) as (C0 & EC0 & HC0 & FC0); auto. { unfold supported_dim. now rewrite unif_grid_length. }
    apply (cubic_transfer g [ns] C0 C); auto.
    - intros i Hin'. rewrite FC0, FC, gsize_counts by auto. reflexivity.
    - destruct (filter_interpolates None (unif_grid g) [ns] V idx [k] Hv (all_unif g)) as (C' & EC' & HV'); auto.
      { unfold supported_dim. now rewrite unif_grid_length. } { now rewrite gsize_counts. }
      rewrite EC0 in EC'. inversion EC'; subst C'. exact HV'. }
  assert (Ea : acomp C 0 = Ok (mkArr (map (csize 3) (unif_grid g)) (fun i => acell C (i ++ [0])))) by (apply (acomp_ok C _ ns); [apply HC|lia]).
  unfold eval_cubic_splines. rewrite Ea. cbn [bind]. rewrite (get_grid_ok g) by (unfold andim, zlen; cbn [ashape]; rewrite map_length, unif_grid_length; reflexivity). cbn [bind].
  split.
  - destruct (value_cubic_rows _ _ _ _ _ _ H (atleast_2d pt) 1 0) as (o & E & S & F); [cbn; now rewrite Hz|lia|rewrite <- Hz; apply atleast_row|].
    destruct (point_from_row 3 g [ns] C pt [k] (acell V (idx ++ [k])) o HC) as (r & Er & Hr); auto. unfold eval_cubic. rewrite Er. cbn [bind fst]. exact Hr.
  - intros points N n Hpp Hn Hr. destruct (value_cubic_rows _ _ _ _ _ _ H points N n) as (o & E & S & F); auto. rewrite E. cbn [bind fst]. eauto.
Qed.
