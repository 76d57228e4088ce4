(** Rounding errors of spline evaluation: the evaluators (C72). *)
From Coq Require Import ZArith List Bool Reals Lia Lra Psatz ZifyBool.
From Flocq Require Import Core Relative.
From Verif Require Import Base BaseFacts SplineModel Spec SpecRound EvalGeneric EvalMaster EvalProps EvalValue EvalR WeightsR RSum EvalRProps RoundR RoundW RoundD RoundT.
Import ListNotations.
Open Scope R_scope.

Section Rounded.
Variable N : Num R.
Variable u : R.
Hypothesis HN : rounded N u.
Hypothesis Hu : u <= / 200.

Lemma pymax_N x y : @pymax R N x y = @pymax R NumR x y.
Proof. unfold pymax. rewrite !(ltb_R N u HN). reflexivity. Qed.
Lemma pymin_N x y : @pymin R N x y = @pymin R NumR x y.
Proof. unfold pymin. rewrite !(ltb_R N u HN). reflexivity. Qed.
Lemma bounds_N g : valid_dim g -> @bounds R (gpN N g) = Ok (glo g, ghi g).
Proof. intros H. destruct g; cbn [gpN bounds]; auto. rewrite glo_unif, (ghi_unif _ _ _ H). reflexivity. Qed.
Lemma extractN_N xm grid : valid_grid grid -> forall pt, length pt = length grid ->
  @extractN R N xm (map (gpN N) grid) pt = Ok (xpoint xm grid pt).
Proof.
  intros Hv pt HL. rewrite <- (extractN_R xm grid Hv pt HL). revert pt HL.
  induction Hv as [|g grid Hg Hv IH]; intros [|x pt] HL; try discriminate; try reflexivity.
  cbn [map extractN]. rewrite IH by (cbn in HL; lia). rewrite bounds_N, bounds_R by auto. cbn [bind].
  unfold outside. rewrite !(ltb_R N u HN), pymax_N, pymin_N. reflexivity.
Qed.
Definition brN (g : gdim R) (x : R) : Z * R * R := (cellN N g x, lamN N g x, delN N g x).
Definition prN xm grid pt := match xpoint xm grid pt with Some q => Some (map2 brN grid q) | None => None end.
Lemma mapM2_bracket_N grid : valid_grid grid -> List.Forall (resolved u) grid -> forall pt, length pt = length grid ->
  mapM2 (@bracket R N) (map (gpN N) grid) pt = Ok (map2 brN grid pt).
Proof.
  intros Hv. induction Hv as [|g grid Hg Hv IH]; intros Hs [|x pt] HL; try discriminate; cbn [map mapM2 map2]; auto. inversion Hs; subst.
  rewrite (bracket_N N u HN Hu) by auto. cbn [bind]. rewrite IH by (auto; cbn in HL; lia). reflexivity.
Qed.
Lemma prep_N xm grid pt : valid_grid grid -> List.Forall (resolved u) grid -> length pt = length grid ->
  @prep R N xm (map (gpN N) grid) pt = Ok (prN xm grid pt).
Proof.
  intros Hv Hs HL. unfold prep, prN. rewrite extractN_N by auto. cbn [bind].
  destruct (xpoint xm grid pt) as [q|] eqn:E; auto. rewrite mapM2_bracket_N; auto. eapply xpoint_length; eauto.
Qed.
Lemma br_fits_N k grid : valid_grid grid -> forall q, length q = length grid -> Forall2 (br_fits k) grid (map2 brN grid q).
Proof.
  intros Hv. induction Hv as [|g grid Hg Hv IH]; intros [|x q] HL; try discriminate; cbn [map2]; constructor; auto.
  pose proof (cellN_range N g x Hg). unfold br_fits, brN. cbn [fst]. lia.
Qed.
Lemma blends_N k grid : (k = 1 \/ k = 3)%Z -> forall q, length q = length grid ->
  mapM2 (fun (br : Z * R * R) l => let '(_, lam, del) := br in @blend R N k l lam del) (map2 brN grid q) (zeros grid) = Ok (map2 (wN N k) grid q).
Proof.
  intros Hk. induction grid as [|g grid IH]; intros [|x q] HL; try discriminate; auto. cbn [map2 zeros map mapM2 brN].
  assert (E : @blend R N k 0 (lamN N g x) (delN N g x) = Ok (wN N k g x)) by (unfold wN; destruct Hk as [-> | ->]; reflexivity).
  fold (zeros grid). unfold brN at 1. rewrite E. cbn [bind]. rewrite IH by (cbn in HL; lia). reflexivity.
Qed.
Definition VN (k : Z) (grid : list (gdim R)) (C : arr R) (q : list R) (suf : list Z) : R :=
  @tsum R N (map2 (wN N k) grid q) (fun inds => acell C (map2 Z.add (map2 (cellN N) grid q) inds ++ suf)) [].
Lemma value_N k grid comps C q suf : (k = 1 \/ k = 3)%Z -> valid_grid grid -> coefs_ok k grid comps C -> length q = length grid -> inb comps suf = true ->
  @get_value R N k (map2 brN grid q) (zeros grid) C suf = Ok (VN k grid C q suf).
Proof.
  intros Hk Hv HC HL Hs. rewrite (get_value_ok k grid (map2 brN grid q) (zeros grid) C suf comps (map2 (wN N k) grid q)).
  - unfold VN. f_equal. apply tsum_ext. intros i. do 3 f_equal.
    clear -HL. revert q HL. induction grid as [|g grid IH]; intros [|x q] HL; try discriminate; auto. cbn [map2 map]. f_equal. apply IH. cbn in HL. lia.
  - now apply br_fits_N.
  - apply HC.
  - auto.
  - now apply blends_N.
Qed.

Lemma kdims_of k grid : kgrid_ok k grid -> kdims k grid.
Proof.
  intros Hk. apply Forall_forall. intros g Hg. destruct Hk as [->|[-> Ha]]; auto. right. split; auto.
  destruct g as [a b n|gc]; eauto. exfalso. unfold all_uniform in Ha. rewrite Forall_forall in Ha. specialize (Ha _ Hg). cbn in Ha. auto.
Qed.

Theorem rounded_value k xm grid comps C pt suf M v :
  valid_grid grid -> kgrid_ok k grid -> coefs_ok k grid comps C -> List.Forall (resolved u) grid ->
  zlen pt = zlen grid -> (xm = XLinear -> in_domain grid pt) -> inb comps suf = true ->
  (forall idx, inb (map (csize k) grid) idx = true -> Rabs (acell C (idx ++ suf)) <= M) ->
  @value_at R NumR k None xm grid comps C pt suf v ->
  exists v', @value_at R N k None xm grid comps C pt suf v' /\ Rabs (v' - v) <= grid_error k u grid * M.
Proof.
  intros Hv Hk HC Hs HL Hd Hsuf HM Hval. pose proof (kgrid_k k grid Hk) as Hk2.
  assert (HL' : length pt = length grid) by (unfold zlen in HL; lia).
  apply value_at_none in Hval; auto.
  set (V := fun (pr : option (list (Z * R * R))) (suf : list Z) => match pr with None => @n_ofZ R N 0 | Some brs =>
     match @get_value R N k brs (zeros grid) C suf with Ok v => v | Err _ => 0 end end).
  assert (HM0 : 0 <= M).
  { specialize (HM (map (fun _ => 0%Z) grid)). pose proof (Rabs_pos (acell C (map (fun _ => 0%Z) grid ++ suf))).
    assert (Q : inb (map (csize k) grid) (map (fun _ => 0%Z) grid) = true); [|specialize (HM Q); lra].
    clear -Hv Hk2. induction Hv as [|g grid Hg Hv IH]; cbn [map inb]; auto. rewrite IH. destruct Hg as [Hg _]. unfold csize. lia. }
  exists (V (prN xm grid pt) suf). split.
  - apply (@value_at_intro R N k None xm grid comps C pt suf _ (map (gpN N) grid) V (prN xm grid)); auto.
    + exact (compile_check_R k grid None Hk (diff_ok_none k grid)).
    + apply mapM_all_ok. intros g Hg. unfold valid_grid in Hv. rewrite Forall_forall in Hv, Hs. apply (recoverN_N N u HN Hu); auto.
    + intros p Hp. apply prep_N; auto. unfold zlen in Hp; lia.
    + intros p suf' Hp Hs'. rewrite result_shape_none in Hs'. assert (Hp' : length p = length grid) by (unfold zlen in Hp; lia).
      change (sel_ix _ suf') with (comp_of comps suf'). rewrite (comp_of_none comps suf') by (eauto using coefs_comps).
      change (sel_oo (zlen grid) None suf') with (diff_of grid None suf'). rewrite diff_of_none.
      unfold valp, V, prN. destruct (xpoint xm grid p) as [q|] eqn:Eq; auto.
      rewrite (value_N k grid comps C q suf') by (auto; eapply xpoint_length; eauto). reflexivity.
    + now rewrite result_shape_none.
  - unfold V, prN. subst v. destruct (xpoint xm grid pt) as [q|] eqn:Eq.
    + rewrite (value_N k grid comps C q suf) by (auto; eapply xpoint_length; eauto).
      assert (Hq : in_domain grid q).
      { destruct xm; cbn in Eq.
        - destruct (insideb grid pt) eqn:Ei; inversion Eq; subst. now apply insideb_spec.
        - inversion Eq; subst. auto.
        - inversion Eq; subst. now apply proj_in_domain. }
      exact (tsum_close N u HN Hu k grid Hk2 Hv (kdims_of k grid Hk) Hs q Hq (fun idx => acell C (idx ++ suf)) M [] [] eq_refl HM0 HM).
    + rewrite (ofZ_small N u HN Hu) by lia. unfold Rminus. rewrite Rplus_opp_r, Rabs_R0.
      pose proof (gprod_ge1 N u HN Hu k grid Hv (kdims_of k grid Hk) Hs). unfold grid_error. fold (gprod u k grid). nra.
Qed.
End Rounded.

(** ** Binary arithmetic *)
Lemma int_exact p z : (1 < p)%Z -> Rabs (IZR z) * bpow radix2 (- p) <= 1 -> to_nearest p (IZR z) = IZR z.
Proof.
  intros Hp Hz. assert (Pp : Prec_gt_0 p) by (unfold Prec_gt_0; lia).
  assert (L : Rabs (IZR z) <= bpow radix2 p).
  { rewrite bpow_opp in Hz. pose proof (bpow_gt_0 radix2 p). apply Rmult_le_reg_r with (/ bpow radix2 p); [now apply Rinv_0_lt_compat|].
    rewrite Rinv_r by lra. exact Hz. }
  unfold to_nearest. apply round_generic; [apply valid_rnd_N|].
  destruct (Rle_lt_or_eq_dec _ _ L) as [Lt|Eq].
  - apply generic_format_FLX. exists (Float radix2 z 0).
    + unfold F2R. cbn. ring.
    + cbn. apply lt_IZR. rewrite abs_IZR. change 2%Z with (radix_val radix2). rewrite <- IZR_Zpower in Lt by lia. exact Lt.
  - assert (G : generic_format radix2 (FLX_exp p) (bpow radix2 p)) by (apply generic_format_bpow; unfold FLX_exp; lia).
    destruct (Rcase_abs (IZR z)) as [Hn|Hn].
    + rewrite Rabs_left in Eq by auto. replace (IZR z) with (- bpow radix2 p) by lra. now apply generic_format_opp.
    + rewrite Rabs_right in Eq by auto. now rewrite Eq.
Qed.
Theorem binary_rounded p : (1 < p)%Z -> rounded (binary p) (bpow radix2 (- p)).
Proof.
  intros Hp. 
  assert (R1 : forall x, exists e, Rabs e <= bpow radix2 (- p) /\ to_nearest p x = x * (1 + e)).
  { intros x. destruct (relative_error_N_FLX_ex radix2 p ltac:(lia) (fun z => negb (Z.even z)) x) as (e & He & E).
    exists e. split; [|exact E]. eapply Rle_trans; [exact He|].
    rewrite bpow_plus. change (bpow radix2 1) with 2. lra. }
  constructor; intros; cbn; auto.
  - apply int_exact; auto.
  - destruct (Rlt_bool_spec x y); split; auto; intros; try lra; discriminate.
  - destruct (Rle_bool_spec x y); split; auto; intros; try lra; discriminate.
  - destruct (Req_bool_spec x 0); split; auto; intros; try lra; discriminate.
  - split; [apply Zfloor_lb|apply Zfloor_ub].
Qed.
Lemma bpow_small p : (8 <= p)%Z -> bpow radix2 (- p) <= / 200.
Proof.
  intros H. apply Rle_trans with (bpow radix2 (- 8)); [apply bpow_le; lia|]. cbn. lra.
Qed.
Lemma linear_one_dim p xm a b n C x M v :
  (8 <= p)%Z -> (2 <= n)%Z -> a < b -> IZR n * bpow radix2 (- p) <= / 200 -> ashape C = [n] -> a <= x <= b ->
  (forall i, (0 <= i < n)%Z -> Rabs (acell C [i]) <= M) ->
  @value_at R NumR 1 None xm [Unif a b n] [] C [x] [] v ->
  exists v', @value_at R (binary p) 1 None xm [Unif a b n] [] C [x] [] v' /\ Rabs (v' - v) <= 14 * IZR n * bpow radix2 (- p) * M.
Proof.
  intros Hp Hn Hab Hs HC Hx HM Hv. assert (Hg : valid_dim (Unif a b n)) by (split; auto).
  destruct (rounded_value (binary p) (bpow radix2 (- p)) (binary_rounded p ltac:(lia)) (bpow_small p Hp) 1 xm [Unif a b n] [] C [x] [] M v) as (v' & V & E).
  - constructor; [exact Hg|constructor].
  - left; reflexivity.
  - split; [|now left]. cbn. rewrite HC. f_equal. unfold csize. cbn. lia.
  - constructor; [exact Hs|constructor].
  - reflexivity.
  - intros _. constructor; [|constructor]. unfold in_dim. rewrite glo_unif, (ghi_unif _ _ _ Hg). lra.
  - reflexivity.
  - intros [|i [|]] Hi; cbn in Hi; try discriminate; try (rewrite andb_false_r in Hi; discriminate).
    rewrite app_nil_r. apply HM. unfold csize in Hi. cbn in Hi. rewrite !andb_true_iff in Hi. lia.
  - exact Hv.
  - exists v'. split; auto. eapply Rle_trans; [exact E|]. apply Req_le. unfold grid_error. cbn [fold_right]. unfold dim_error. cbn [Z.eqb Pos.eqb]. ring.
Qed.
