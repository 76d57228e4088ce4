(** The spline objects over the reals: interpolation (C48), the legacy functions (C55). *)
From Coq Require Import ZArith List Bool Reals Lra Lia.
From Verif Require Import Base BaseFacts SplineModel PrefilterModel Spec EvalGeneric EvalMaster EvalProps RSum EvalValue EvalR EvalRProps EvalCases
  PrefilterR PrefilterProps ArrayModel ArrayFacts SpecBasis SpecGrad GradModel GradProps ObjectModel SpecObject ObjectProps.
Import ListNotations.
Open Scope Z_scope.

(** ** Row-major order *)
Lemma position_fold sh : forall idx r, length sh = length idx ->
  fold_left (fun r ni => r * fst ni + snd ni) (combine sh idx) r = r * zprod sh + ravel sh idx.
Proof.
  induction sh as [|n sh IH]; intros [|i idx] r H; try discriminate; cbn [combine fold_left]; [cbn; lia|].
  rewrite IH by (cbn in H; lia). cbn [fst snd ravel]. rewrite zprod_cons. ring.
Qed.
Lemma position_ravel sh idx : inb sh idx = true -> position sh idx = ravel sh idx.
Proof. intros H. apply inb_length in H. unfold position. rewrite position_fold by congruence. lia. Qed.

Lemma reshape_order {T} (V : arr T) sh : zprod (ashape V) = zprod sh ->
  exists W, areshape V sh = Ok W /\ same_order V sh W.
Proof.
  intros H. rewrite areshape_ok by auto. eexists. split; [reflexivity|]. split; auto. cbn [acell].
  intros idx j Hi Hj Hp. rewrite !position_ravel in Hp by auto. rewrite <- Hp. now rewrite unravel_ravel.
Qed.
Lemma same_order_same {T} (V W : arr T) : same_order V (ashape V) W -> aeq V W.
Proof. intros [HS H]. split; auto. intros idx Hi. symmetry. apply H; auto. Qed.
Lemma same_order_trans {T} (U V W : arr T) sh : Forall (fun n => 0 <= n) sh ->
  zprod (ashape U) = zprod sh ->  same_order U sh V -> same_order V sh W -> same_order U sh W.
Proof.
  intros _ _ [HS H] [HS' H']. split; auto. intros idx j Hi Hj Hp. rewrite (H' idx idx); auto; rewrite HS; auto.
Qed.

(** ** Finite tests *)
Lemma all_finite_R (a : arr R) : all_finite a = true.
Proof. unfold all_finite. apply forallb_forall. reflexivity. Qed.
Lemma finite_pts_R (p : pts R) : finite_pts p = true.
Proof. destruct p; cbn; [|apply all_finite_R]. apply forallb_forall. reflexivity. Qed.

(** ** The grid *)
Lemma lower_len g : zlen (lower g) = zlen g. Proof. unfold zlen, lower. now rewrite map_length. Qed.
Lemma upper_len g : zlen (upper g) = zlen g. Proof. unfold zlen, upper. now rewrite map_length. Qed.
Lemma counts_len g : zlen (counts g) = zlen g. Proof. unfold zlen, counts. now rewrite map_length. Qed.
Lemma get_grid_ok g d : d = zlen g -> get_grid (lower g) (upper g) (counts g) d = Ok (unif_grid g).
Proof.
  intros ->. unfold get_grid. rewrite unif_grid_map.
  rewrite mapM_all_ok with (g := fun k => gof (nth (Z.to_nat k) g (0%R, 0%R, 0))).
  - f_equal. rewrite <- (map_map (fun k => nth (Z.to_nat k) g (0%R, 0%R, 0)) gof). f_equal. apply map_nth_zrange.
  - intros k Hk. apply zrange_In in Hk.
    rewrite (lget_ok (lower g) k 0%R), (lget_ok (upper g) k 0%R), (lget_ok (counts g) k 0) by (rewrite ?lower_len, ?upper_len, ?counts_len; lia).
    cbn [bind]. unfold lower, upper, counts.
    rewrite (map_nth' (fun t : R * R * Z => fst (fst t)) g 0%R (0%R, 0%R, 0)), (map_nth' (fun t : R * R * Z => snd (fst t)) g 0%R (0%R, 0%R, 0)),
      (map_nth' snd g 0 (0%R, 0%R, 0)) by (unfold zlen in Hk; lia).
    destruct (nth _ _ _) as [[a b] n]. reflexivity.
Qed.
Lemma obj_grid_ok g : obj_grid (lower g) (upper g) (counts g) = Ok (unif_grid g).
Proof. unfold obj_grid. apply get_grid_ok. apply lower_len. Qed.
Lemma gsize_counts g : map gsize (unif_grid g) = counts g.
Proof. induction g as [|[[a b] n] g IH]; cbn; auto. now rewrite IH. Qed.

Definition dinvR (t : R * R * Z) : R := ((snd (fst t) - fst (fst t)) / IZR (snd t))%R.
Lemma filter_coeffs_eq g (D : arr R) : filter_coeffs (lower g) (upper g) (counts g) D =
  (D <- areshape D (counts g) ;; filter_data (map dinvR g) D).
Proof.
  unfold filter_coeffs.
  assert (E1 : mapM2 (fun x y : R => Ok (n_sub y x)) (lower g) (upper g) = Ok (map (fun t => snd (fst t) - fst (fst t))%R g)).
  { unfold lower, upper. clear. induction g as [|[[a b] n] g IH]; [reflexivity|]. cbn [map mapM2 bind]. rewrite IH. reflexivity. }
  rewrite E1. cbn [bind].
  assert (E2 : mapM2 (fun (x : R) n => Ok (n_div x (n_ofZ n))) (map (fun t : R * R * Z => snd (fst t) - fst (fst t))%R g) (counts g) = Ok (map dinvR g)).
  { unfold counts. clear. induction g as [|[[a b] n] g IH]; [reflexivity|]. cbn [map mapM2 bind]. rewrite IH. reflexivity. }
  rewrite E2. reflexivity.
Qed.

Lemma dinvR_ok g : valid_grid (unif_grid g) -> ok_dinv (map dinvR g).
Proof.
  intros H. unfold ok_dinv. induction g as [|[[a b] n] g IH]; cbn in *; constructor.
  - inversion H as [|? ? [H1 H2] H3]; subst. cbn in *. unfold dinvR; cbn. intros E.
    assert (0 < (b - a) / IZR n)%R. { apply Rdiv_lt_0_compat; [lra|]. apply (IZR_lt 0). lia. } lra.
  - apply IH. now inversion H.
Qed.

(** Coefficients of one spline. *)
Lemma filter_coeffs_R g (D W : arr R) : valid_grid (unif_grid g) -> (1 <= length g <= 4)%nat -> areshape D (counts g) = Ok W ->
  exists C, filter_coeffs (lower g) (upper g) (counts g) D = Ok (Some C) /\ ashape C = map (csize 3) (unif_grid g) /\
    forall idx, inb (map (csize 3) (unif_grid g)) idx = true -> acell C idx = PF (counts g) (acell W) idx.
Proof.
  intros Hv Hd E. rewrite filter_coeffs_eq, E. cbn [bind].
  assert (S : ashape W = counts g). { unfold areshape in E. destruct (_ =? _); inversion E. reflexivity. }
  pose proof (big_sizes _ Hv) as HB. rewrite gsize_counts in HB.
  destruct (filter_data_R (map dinvR g) W) as (C & E' & S' & F').
  - now apply dinvR_ok.
  - now rewrite map_length.
  - now rewrite S.
  - rewrite S. unfold counts. now rewrite !map_length.
  - rewrite S in *. rewrite <- gsize_counts, all2_csize in S'. exists C. split; auto. split; auto.
    intros idx Hi. rewrite F' by (rewrite <- gsize_counts, all2_csize; auto). reflexivity.
Qed.

(** Coefficients of several splines. *)
Lemma acomp_ok {T} (a : arr T) sh n i : ashape a = sh ++ [n] -> 0 <= i < n ->
  acomp a i = Ok (mkArr sh (fun idx => acell a (idx ++ [i]))).
Proof.
  intros H Hi. unfold acomp, andim. rewrite H. rewrite adim_ok by (rewrite H; unfold zlen; rewrite app_length; cbn; lia). cbn [bind].
  rewrite H. unfold zlen. rewrite app_length. cbn [length].
  replace (Z.to_nat (Z.of_nat (length sh + 1) - 1)) with (length sh) by lia. rewrite nth_app_last.
  replace ((0 <=? i) && (i <? n)) with true by lia. now rewrite removelast_last.
Qed.

Lemma filter_mcoeffs_R nan g ns (V : arr R) : valid_grid (unif_grid g) -> (1 <= length g <= 4)%nat -> ashape V = counts g ++ [ns] -> 0 <= ns ->
  exists C, filter_mcoeffs nan (lower g) (upper g) (counts g) V = Ok C /\ coefs_ok 3 (unif_grid g) [ns] C /\
    forall idx k, inb (map (csize 3) (unif_grid g)) idx = true -> 0 <= k < ns ->
      acell C (idx ++ [k]) = PF (counts g) (fun r => acell V (r ++ [k])) idx.
Proof.
  intros Hv Hd HV Hns. unfold filter_mcoeffs.
  assert (Ha : adim V (andim V - 1) = Ok ns).
  { unfold andim. rewrite HV, adim_ok by (rewrite HV; unfold zlen; rewrite app_length; cbn; lia). rewrite HV. unfold zlen. rewrite app_length. cbn [length].
    replace (Z.to_nat (Z.of_nat (length (counts g) + 1) - 1)) with (length (counts g)) by lia. now rewrite nth_app_last. }
  rewrite Ha. cbn [bind].
  assert (Hsz : map (fun i => i + 2) (counts g) = map (csize 3) (unif_grid g)).
  { rewrite <- gsize_counts, map_map. apply map_ext. intros. unfold csize. lia. }
  rewrite Hsz.
  pose proof (big_sizes _ Hv) as HB. rewrite gsize_counts in HB.
  match goal with |- exists C, foldM ?f _ ?s0 = _ /\ _ => destruct (foldM_zrange f (fun m (C : arr R) => ashape C = map (csize 3) (unif_grid g) ++ [ns] /\
    forall idx k, inb (map (csize 3) (unif_grid g)) idx = true -> 0 <= k < m ->
      acell C (idx ++ [k]) = PF (counts g) (fun r => acell V (r ++ [k])) idx) ns s0) as (C & E & S & F) end.
  - exact Hns.
  - split; [reflexivity|intros; lia].
  - intros i C Hi (S & F). rewrite (acomp_ok V (counts g) ns i) by auto. cbn [bind].
    destruct (reshape_order (mkArr (counts g) (fun idx => acell V (idx ++ [i]))) (counts g) eq_refl) as (W & EW & HW).
    destruct (filter_coeffs_R g _ W Hv Hd EW) as (Ci & ECi & SCi & FCi). rewrite ECi. cbn [bind].
    unfold aset_comp. rewrite SCi, S, removelast_last.
    destruct (idx_eqb_spec (map (csize 3) (unif_grid g)) (map (csize 3) (unif_grid g))) as [_|N]; [|congruence].
    eexists. split; [reflexivity|]. split; [reflexivity|]. cbn [acell]. intros idx k Hidx Hk. rewrite last_last, removelast_last.
    destruct (Z.eqb_spec k i) as [->|Hne]; [|apply F; auto; lia].
    rewrite FCi by auto. apply PF_ext; auto; [|now rewrite <- gsize_counts, all2_csize].
    intros j Hj. apply same_order_same in HW. cbn in HW. destruct HW as [_ HW]. cbn in HW. symmetry. apply HW; auto.
  - exists C. split; [exact E|]. split; [split; eauto|]. exact F.
Qed.

(** ** Evaluation *)
Lemma cubic_transfer g comps (C C' : arr R) pt suf v : valid_grid (unif_grid g) ->
  coefs_ok 3 (unif_grid g) comps C -> coefs_ok 3 (unif_grid g) comps C' -> inb comps suf = true -> length pt = length g ->
  (forall idx, inb (map (csize 3) (unif_grid g)) idx = true -> acell C (idx ++ suf) = acell C' (idx ++ suf)) ->
  value_cubic None (unif_grid g) comps C pt suf v -> value_cubic None (unif_grid g) comps C' pt suf v.
Proof.
  intros Hv HC HC' Hs Hp HE H. apply (proj1 (value_cubic_at _ _ _ _ _ _ _)) in H. apply (proj2 (value_cubic_at _ _ _ _ _ _ _)).
  assert (Hk : kgrid_ok 3 (unif_grid g)) by (right; split; auto; apply all_unif).
  apply value_at_none in H; auto; [|now rewrite unif_grid_length]. apply value_at_none; auto; [now rewrite unif_grid_length|].
  rewrite H. cbn [default_mode xpoint]. apply VR_ext; auto using zeros_length. now rewrite unif_grid_length.
Qed.

Lemma value_cubic_rows g comps (C : arr R) pt suf v : value_cubic None (unif_grid g) comps C pt suf v ->
  forall points N n, ashape points = [N; zlen g] -> 0 <= n < N -> row_of (zlen g) points n = pt ->
  exists o, eval_cubic (unif_grid g) C (P2 points) None None = Ok (VArr o, None) /\ ashape o = N :: comps /\ acell o (n :: suf) = v.
Proof.
  intros [H _] points N n Hp Hn Hr. assert (Hz : zlen (unif_grid g) = zlen g) by (unfold zlen; now rewrite unif_grid_length).
  destruct (H points N n) as (o & E & S & F); auto; try (rewrite Hz; auto; fail).
  exists o. rewrite result_shape_none in S. auto.
Qed.
Lemma value_linear_rows g comps (C : arr R) pt suf v : value_linear None (unif_grid g) comps C pt suf v ->
  forall points N n, ashape points = [N; zlen g] -> 0 <= n < N -> row_of (zlen g) points n = pt ->
  exists o, eval_linear (unif_grid g) C (P2 points) None None = Ok (VArr o, None) /\ ashape o = N :: comps /\ acell o (n :: suf) = v.
Proof.
  intros [H _] points N n Hp Hn Hr. assert (Hz : zlen (unif_grid g) = zlen g) by (unfold zlen; now rewrite unif_grid_length).
  destruct (H points N n) as (o & E & S & F); auto; try (rewrite Hz; auto; fail).
  exists o. rewrite result_shape_none in S. auto.
Qed.
(** In place. *)
Lemma value_cubic_rows_out g comps (C : arr R) pt suf v : coefs_ok 3 (unif_grid g) comps C -> inb comps suf = true ->
  value_cubic None (unif_grid g) comps C pt suf v ->
  forall points out N n, ashape points = [N; zlen g] -> ashape out = N :: comps -> 0 <= n < N -> row_of (zlen g) points n = pt ->
  exists o, eval_cubic (unif_grid g) C (P2 points) (Some out) None = Ok (VNone, Some o) /\ ashape o = N :: comps /\ acell o (n :: suf) = v.
Proof.
  intros HC Hs H points out N n Hp Ho Hn Hr. destruct (value_cubic_rows _ _ _ _ _ _ H points N n) as (o & E & S & F); auto.
  assert (Hz : zlen (unif_grid g) = zlen g) by (unfold zlen; now rewrite unif_grid_length).
  destruct (inplace_rows 3 None XLinear (unif_grid g) comps C points o out N) as (o' & E' & A); auto.
  - now rewrite Hz.
  - lia.
  - now rewrite result_shape_none.
  - exists o'. split; auto. destruct A as [A1 A2]. split; [congruence|]. rewrite <- A2; auto. rewrite S. cbn [inb].
    rewrite Hs. lia.
Qed.
(** One point, as a matrix with one row. *)
Lemma atleast_row (x : list R) : row_of (zlen x) (atleast_2d x) 0 = x.
Proof.
  etransitivity; [|exact (map_nth_zrange x 0%R)]. unfold row_of. apply map_ext. intros j. reflexivity.
Qed.
Lemma single_linear grid comps : @single_point_form R XLinear grid comps None.
Proof. split; auto. intros (H & _). discriminate. Qed.

Lemma point_from_row k g comps (C : arr R) pt suf v o : coefs_ok k (unif_grid g) comps C -> length pt = length g -> inb comps suf = true ->
  eval_spline k None XLinear (unif_grid g) C (P2 (atleast_2d pt)) None = Ok (VArr o, None) -> acell o (0 :: suf) = v ->
  exists r, eval_spline k None XLinear (unif_grid g) C (P1 pt) None = Ok (r, None) /\ point_gives (Ok r) suf v.
Proof.
  intros HC Hp Hs E Ho.
  assert (Hz : zlen (unif_grid g) = zlen pt) by (unfold zlen; rewrite unif_grid_length; lia).
  destruct (rows_are_points k None XLinear (unif_grid g) comps C (atleast_2d pt) o 1 0 HC (single_linear _ _)) as (S & r & Er & H); auto.
  - now rewrite Hz.
  - lia.
  - rewrite Hz, atleast_row in Er. exists r. split; auto. destruct HC as [_ [->|(nx & -> & Hx)]].
    + destruct suf; [|discriminate]. now subst r.
    + destruct suf as [|k' [|? ?]]; try discriminate. destruct H as (a & -> & Sa & Ca). split.
      * rewrite Ca; auto. 
      * exists nx. split; auto. cbn in Hs. lia.
      * cbn in Hs. lia.
Qed.

(** *** CubicSpline *)

Lemma cs_eval g s C pt v : cs_a s = lower g -> cs_b s = upper g -> cs_orders s = counts g -> cs_coeffs s = Some C ->
  coefs_ok 3 (unif_grid g) [] C -> length pt = length g -> value_cubic None (unif_grid g) [] C pt [] v -> cs_gives g s pt v.
Proof.
  intros E1 E2 E3 E4 HC HL H junk.
  assert (HR : forall out, out_fits out -> rows_give (fun p => cs_interpolate junk s (P2 p) (out p) false) (zlen g) [] pt [] v).
  { intros out Ho points N n Hp Hn Hr. unfold cs_interpolate. rewrite E1, E2, E3, E4, obj_grid_ok. cbn [bind].
    rewrite finite_pts_R. cbn [negb]. rewrite Hp. rewrite lower_len, Z.eqb_refl. cbn [negb].
    set (out0 := match out points with Some v => v | None => mkArr [N] junk end).
    destruct (value_cubic_rows_out g [] C pt [] v HC eq_refl H points out0 N n) as (o & E & S & F); auto.
    - unfold out0. destruct (out points) as [o|] eqn:Eo; [|reflexivity]. rewrite (Ho _ _ Eo), Hp. reflexivity.
    - rewrite E. cbn [bind snd]. eauto. }
  assert (Hz : zlen pt = zlen g) by (unfold zlen; lia).
  split; [|split; [|split]]; auto.
  - intros values. unfold cs_interpolate. rewrite E1, E2, E3, E4, obj_grid_ok. cbn [bind]. rewrite finite_pts_R. cbn [negb].
    destruct (value_cubic_rows _ _ _ _ _ _ H (atleast_2d pt) 1 0) as (o & E & S & F); [cbn; now rewrite Hz|lia|rewrite <- Hz; apply atleast_row|].
    destruct (point_from_row 3 g [] C pt [] v o) as (r & Er & Hr); auto.
    unfold eval_cubic. rewrite Er. exact Hr.
  - unfold cs_call. destruct (HR (fun _ => None) ltac:(intros ? ? ?; discriminate) (atleast_2d pt) 1 0) as (o & E & S & F);
      [cbn; now rewrite Hz|lia|rewrite <- Hz; apply atleast_row|].
    rewrite E. cbn [bind first_row]. rewrite S. cbn. exact F.
  - apply (HR (fun _ => None)). intros ? ? ?; discriminate.
Qed.

Lemma cs_new_ok g (V : arr R) : valid_grid (unif_grid g) -> (1 <= length g <= 4)%nat -> entries (ashape V) = entries (counts g) ->
  exists s W C, cs_new (lower g) (upper g) (counts g) (Some V) = Ok s /\ areshape V (counts g) = Ok W /\
    cs_a s = lower g /\ cs_b s = upper g /\ cs_orders s = counts g /\ cs_coeffs s = Some C /\
    coefs_ok 3 (unif_grid g) [] C /\ forall idx, inb (map (csize 3) (unif_grid g)) idx = true -> acell C idx = PF (counts g) (acell W) idx.
Proof.
  intros Hv Hd HV. change (zprod (ashape V) = zprod (counts g)) in HV. destruct (reshape_order V (counts g) HV) as (W & EW & HW).
  destruct (reshape_order W (counts g)) as (W' & EW' & HW'); [now rewrite (proj1 HW)|].
  destruct (filter_coeffs_R g W W' Hv Hd EW') as (C & EC & SC & FC).
  exists (mkCS (lower g) (upper g) (counts g) (Some W) (Some C)), W, C.
  unfold cs_new. rewrite upper_len, lower_len, counts_len, Z.eqb_refl. cbn [negb orb].
  unfold cs_set. cbn [cs_orders cs_a cs_b cs_coeffs]. rewrite all_finite_R. cbn [negb]. rewrite EW, EC. cbn [bind].
  repeat (split; [reflexivity|]). split; [split; [now rewrite app_nil_r|now left]|].
  intros idx Hi. rewrite FC by auto. pose proof (big_sizes _ Hv) as HB. rewrite gsize_counts in HB.
  apply PF_ext; auto; [|now rewrite <- gsize_counts, all2_csize].
  intros j Hj. apply (proj2 HW'); rewrite ?(proj1 HW); auto.
Qed.

Theorem cubic_object g (V : arr R) : valid_grid (unif_grid g) -> (1 <= length g <= 4)%nat -> entries (ashape V) = entries (counts g) ->
  exists s W C, cs_new (lower g) (upper g) (counts g) (Some V) = Ok s /\ same_order V (counts g) W /\
    filter_cubic (unif_grid g) W None = Ok (VArr C, None) /\
    forall pt v, length pt = length g -> value_cubic None (unif_grid g) [] C pt [] v -> cs_gives g s pt v.
Proof.
  intros Hv Hd HV. destruct (cs_new_ok g V Hv Hd HV) as (s & W & C & E & EW & E1 & E2 & E3 & E4 & HC & FC).
  destruct (reshape_order V (counts g) HV) as (W' & EW' & HW). rewrite EW in EW'. inversion EW'; subst W'.
  assert (HVo : values_ok (unif_grid g) [] W) by (split; [rewrite gsize_counts, app_nil_r; apply HW|now left]).
  destruct (filter_call (unif_grid g) [] W Hv (all_unif g)) as (C0 & EC0 & HC0 & FC0); auto.
  { unfold supported_dim. now rewrite unif_grid_length. }
  exists s, W, C0. split; auto. split; auto. split; auto. intros pt v Hp H.
  apply (cs_eval g s C); auto. apply (cubic_transfer g [] C0 C); auto. intros idx Hi. rewrite FC0 by auto.
  rewrite app_nil_r, FC by auto. rewrite gsize_counts. pose proof (big_sizes _ Hv) as HB. rewrite gsize_counts in HB.
  apply PF_ext; auto; [|now rewrite <- gsize_counts, all2_csize]. intros j _. now rewrite app_nil_r.
Qed.

Theorem cubic_object_nodes g (V : arr R) : valid_grid (unif_grid g) -> (1 <= length g <= 4)%nat -> entries (ashape V) = entries (counts g) ->
  exists s, cs_new (lower g) (upper g) (counts g) (Some V) = Ok s /\
    forall idx j, inb (counts g) idx = true -> inb (ashape V) j = true -> position (ashape V) j = position (counts g) idx ->
      cs_gives g s (node_at (unif_grid g) idx) (acell V j).
Proof.
  intros Hv Hd HV. destruct (cubic_object g V Hv Hd HV) as (s & W & C & E & HW & EC & H). exists s. split; auto.
  intros idx j Hi Hj Hp. assert (HVo : values_ok (unif_grid g) [] W) by (split; [rewrite gsize_counts, app_nil_r; apply HW|now left]).
  apply H. { rewrite node_at_length, unif_grid_length; auto. now rewrite gsize_counts. }
  destruct (filter_interpolates None (unif_grid g) [] W idx [] Hv (all_unif g)) as (C' & EC' & HV'); auto.
  { unfold supported_dim. now rewrite unif_grid_length. } { now rewrite gsize_counts. }
  rewrite EC in EC'. inversion EC'; subst C'. rewrite app_nil_r in HV'. rewrite <- (proj2 HW idx j); auto.
Qed.
