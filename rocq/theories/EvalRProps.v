(** Proofs of the numeric properties of evaluation (C01-C03, C08-C12, C19, C21, C22). *)
From Coq Require Import ZArith List Bool Reals Lia Lra Psatz ZifyBool.
From Coquelicot Require Import Coquelicot.
From Flocq Require Import Core.Raux.
From Verif Require Import Base BaseFacts SplineModel Spec EvalProps EvalValue EvalR WeightsR RSum.
Import ListNotations.
Open Scope R_scope.

Definition zeros (grid : list (gdim R)) : list Z := map (fun _ => 0%Z) grid.

Lemma diff_of_none grid suf : diff_of grid None suf = zeros grid.
Proof.
  unfold diff_of, EvalMaster.sel_oo, zeros, zrange, zlen. rewrite Nat2Z.id, map_map.
  generalize 0%nat. induction grid; cbn; intros; auto. f_equal. apply IHgrid.
Qed.

Lemma comp_of_none comps suf : (comps = [] \/ exists nx, comps = [nx]) -> inb comps suf = true -> comp_of comps suf = suf.
Proof.
  intros [->|[nx ->]] H; unfold comp_of, EvalMaster.sel_ix; destruct suf as [|i [|]]; cbn in H; try lia; auto.
Qed.

Lemma coefs_comps k (grid : list (gdim R)) comps (C : arr R) : coefs_ok k grid comps C -> comps = [] \/ exists nx, comps = [nx].
Proof. intros [_ [->|[nx [-> _]]]]; eauto. Qed.

Lemma result_shape_none comps : result_shape comps None = comps.
Proof. unfold result_shape. apply app_nil_r. Qed.

Lemma diff_ok_none k grid : diff_ok k grid None.
Proof. split; cbn; auto. Qed.

(** [value_at] without derivatives. *)
Lemma value_at_none k xm grid comps C pt suf v :
  valid_grid grid -> kgrid_ok k grid -> coefs_ok k grid comps C ->
  length pt = length grid -> inb comps suf = true ->
  value_at k None xm grid comps C pt suf v <->
  v = match xpoint xm grid pt with
      | Some q => VR k grid (zeros grid) (fun idx => acell C (idx ++ suf)) q
      | None => 0
      end.
Proof.
  intros Hv Hk HC HL Hs. rewrite value_at_iff; auto using diff_ok_none.
  - unfold outcome. rewrite diff_of_none, comp_of_none by (eauto using coefs_comps). reflexivity.
  - unfold zlen; lia.
  - now rewrite result_shape_none.
Qed.

(** Points of the domain are not moved by any mode. *)
Lemma proj_inside grid pt : in_domain grid pt -> proj_grid grid pt = pt.
Proof.
  intros H. induction H as [|g x grid pt [H1 H2] H IH]; cbn; auto. f_equal; auto.
  unfold projR. rewrite (Rmin_left x) by lra. apply Rmax_right. lra.
Qed.
Lemma in_domain_length grid pt : in_domain grid pt -> length pt = length grid.
Proof. intros H. symmetry. eapply Forall2_length; eauto. Qed.
Lemma xpoint_inside xm grid pt : in_domain grid pt -> xpoint xm grid pt = Some pt.
Proof.
  intros H. destruct xm; cbn; auto.
  - assert (E : insideb grid pt = true) by (apply insideb_spec; auto using in_domain_length). now rewrite E.
  - now rewrite proj_inside.
Qed.
Lemma proj_in_domain grid : valid_grid grid -> forall pt, length pt = length grid -> in_domain grid (proj_grid grid pt).
Proof.
  intros Hv. induction Hv as [|g grid Hg Hv IH]; intros [|x pt] HL; try discriminate; constructor.
  - pose proof (glo_ghi g Hg). unfold projR, in_dim.
    split; [apply Rmax_l|]. apply Rmax_lub; [lra|apply Rmin_r].
  - apply IH. cbn in HL; lia.
Qed.

Lemma node_at_length grid : forall idx, inb (map gsize grid) idx = true -> length (node_at grid idx) = length grid.
Proof.
  induction grid as [|g grid IH]; intros [|i idx] H; try discriminate; auto.
  cbn in *. f_equal. apply IH. now apply andb_true_iff in H as [_ H].
Qed.
Lemma node_in_domain grid : valid_grid grid -> forall idx, inb (map gsize grid) idx = true -> in_domain grid (node_at grid idx).
Proof.
  intros Hv. induction Hv as [|g grid Hg Hv IH]; intros [|i idx] H; try discriminate; constructor; cbn in H.
  - apply gnode_in_dim; auto. lia.
  - apply IH. now apply andb_true_iff in H as [_ H].
Qed.

Lemma dims_fst k grid : forall oo pt, length oo = length grid -> length pt = length grid ->
  map fst (dims k grid oo pt) = map (csize k) grid.
Proof.
  induction grid as [|g grid IH]; intros [|l oo] [|x pt] H1 H2; try discriminate; auto.
  rewrite dims_cons. cbn [map fst]. f_equal. apply IH; cbn in *; lia.
Qed.
Lemma zeros_length grid : length (zeros grid) = length grid.
Proof. apply map_length. Qed.

(** *** C01 *)
Lemma VR1_node grid c idx : valid_grid grid -> inb (map gsize grid) idx = true ->
  VR 1 grid (zeros grid) c (node_at grid idx) = c idx.
Proof.
  intros Hv. revert c idx. induction Hv as [|g grid Hg Hv IH]; intros c [|i idx] H; try discriminate; auto.
  cbn [map] in H. cbn [inb] in H. apply andb_true_iff in H as [H1 H2].
  unfold VR, zeros, node_at. cbn [map map2]. rewrite dims_cons. cbn [NS].
  rewrite (zsum_single _ _ i).
  - rewrite phi1_node by (auto; lia). rewrite Z.eqb_refl, Rmult_1_l. apply (IH (fun idx => c (i :: idx))). auto.
  - unfold csize. lia.
  - intros j Hj Hne. unfold csize in Hj. rewrite phi1_node by (auto; lia).
    replace (j =? i)%Z with false by lia. ring.
Qed.

Theorem linear_at_node xm grid comps C idx suf :
  valid_grid grid -> coefs_ok 1 grid comps C ->
  inb (map gsize grid) idx = true -> inb comps suf = true ->
  value_at 1 None xm grid comps C (node_at grid idx) suf (acell C (idx ++ suf)).
Proof.
  intros Hv HC Hi Hs. pose proof (node_in_domain grid Hv idx Hi) as Hd.
  apply value_at_none; auto. { now left. } { now apply node_at_length. }
  rewrite xpoint_inside by auto. symmetry.
  exact (VR1_node grid (fun ix => acell C (ix ++ suf)) idx Hv Hi).
Qed.

(** *** C02 *)
Lemma affine_1d (h : R -> R) : (forall x y t, h ((1 - t) * x + t * y) = (1 - t) * h x + t * h y) ->
  forall t, h t = h 0 + t * (h 1 - h 0).
Proof. intros H t. specialize (H 0 1 t). replace ((1 - t) * 0 + t * 1) with t in H by ring. rewrite H. ring. Qed.

Lemma VR1_affine grid : valid_grid grid -> forall f pt, length pt = length grid ->
  multi_affine (length grid) f -> VR 1 grid (zeros grid) (fun idx => f (node_at grid idx)) pt = f pt.
Proof.
  intros Hv. induction Hv as [|g grid Hg Hv IH]; intros f [|x pt] HL Hf; try discriminate; auto.
  unfold VR, zeros. cbn [map]. rewrite dims_cons. cbn [NS].
  rewrite (zsum_ext _ _ (fun i => phi 1 0 g x i * (f (0 :: pt) + gnode g i * (f (1 :: pt) - f (0 :: pt))))).
  - rewrite (zsum_ext _ _ (fun i => f (0 :: pt) * phi 1 0 g x i + (f (1 :: pt) - f (0 :: pt)) * (phi 1 0 g x i * gnode g i)))
      by (intros; ring).
    rewrite zsum_plus, !zsum_scal, phi1_one, phi1_id by auto.
    pose proof (affine_1d (fun t => f (t :: pt)) (fun y z t => Hf [] y z t pt HL) x) as E. cbn beta in E. rewrite E. ring.
  - intros i Hi. f_equal.
    pose proof (affine_1d (fun t => f (t :: pt)) (fun y z t => Hf [] y z t pt HL) (gnode g i)) as E. cbn beta in E. rewrite <- E.
    apply (IH (fun p => f (gnode g i :: p)) pt); [cbn in HL; lia|].
    intros pre y z t post Hlen. apply (Hf (gnode g i :: pre) y z t post). cbn in *. lia.
Qed.

Lemma inb_app_r sh1 sh2 : forall i1 i2, inb sh1 i1 = true -> inb sh2 i2 = true -> inb (sh1 ++ sh2) (i1 ++ i2) = true.
Proof.
  induction sh1 as [|n sh1 IH]; intros [|i i1] i2 H1 H2; try discriminate; auto.
  cbn in *. apply andb_true_iff in H1 as [-> H1]. cbn. auto.
Qed.

Lemma csize1_map (grid : list (gdim R)) : map (csize 1) grid = map gsize grid.
Proof. apply map_ext. intros. apply csize_1. Qed.

Theorem linear_multi_affine xm grid comps C f pt suf :
  valid_grid grid -> coefs_ok 1 grid comps C -> inb comps suf = true ->
  multi_affine (length grid) f ->
  (forall idx, inb (map gsize grid) idx = true -> acell C (idx ++ suf) = f (node_at grid idx)) ->
  length pt = length grid -> (xm = XLinear \/ in_domain grid pt) ->
  value_at 1 None xm grid comps C pt suf (f pt).
Proof.
  intros Hv HC Hs Hf Hc HL Hx.
  apply value_at_none; auto. { now left. }
  assert (E : xpoint xm grid pt = Some pt).
  { destruct Hx as [->|Hx]; [reflexivity|now apply xpoint_inside]. }
  rewrite E. symmetry. rewrite <- (VR1_affine grid Hv f pt HL Hf) at 1.
  unfold VR. apply NS_ext. intros idx Hi.
  rewrite dims_fst in Hi by (auto using zeros_length). rewrite csize1_map in Hi. auto.
Qed.

(** *** C03 *)
Lemma VR1_range grid c m M pt : valid_grid grid -> in_domain grid pt ->
  (forall idx, inb (map gsize grid) idx = true -> m <= c idx <= M) ->
  m <= VR 1 grid (zeros grid) c pt <= M.
Proof.
  intros Hv Hd Hc. unfold VR. apply NS_bounds.
  - clear Hc. unfold zeros. induction Hd as [|g x grid pt Hx Hd IH]; cbn [map].
    + constructor.
    + inversion Hv; subst. rewrite dims_cons. constructor; auto. cbn [fst snd]. split.
      * intros i Hi. now apply phi1_nonneg.
      * now apply phi1_one.
  - intros idx Hi. apply Hc. rewrite dims_fst, csize1_map in Hi; auto using zeros_length, in_domain_length.
Qed.

Theorem linear_range xm grid comps C m M pt suf v :
  valid_grid grid -> coefs_ok 1 grid comps C -> inb comps suf = true ->
  length pt = length grid ->
  (in_domain grid pt \/ xm = XNearest) ->
  (forall idx, inb (map gsize grid) idx = true -> m <= acell C (idx ++ suf) <= M) ->
  value_at 1 None xm grid comps C pt suf v -> m <= v <= M.
Proof.
  intros Hv HC Hs HL Hx Hc H. apply value_at_none in H; auto; [|now left]. subst v.
  destruct Hx as [Hd|Hx].
  - rewrite xpoint_inside by auto. now apply VR1_range.
  - subst xm. cbn. apply VR1_range; auto. now apply proj_in_domain.
Qed.

(** *** C08 *)
Lemma closest_proj grid : valid_grid grid -> forall pt q, length pt = length grid -> closest grid pt q -> q = proj_grid grid pt.
Proof.
  intros Hv. induction Hv as [|g grid Hg Hv IH]; intros [|x pt] q HL [Hq Hmin]; try discriminate.
  - inversion Hq; reflexivity.
  - inversion Hq as [|g' y grid' q' Hy Hq']; subst. cbn [proj_grid map2]. f_equal.
    + assert (Hp : in_dim g (projR g x)).
      { pose proof (glo_ghi g Hg). unfold projR, in_dim. split; [apply Rmax_l|]. apply Rmax_lub; [lra|apply Rmin_r]. }
      specialize (Hmin (projR g x :: q') ltac:(constructor; auto)). cbn in Hmin.
      unfold in_dim in *. unfold projR, Rmax, Rmin in *.
      destruct (Rle_dec x (ghi g)) as [A|A].
      * destruct (Rle_dec (glo g) x) as [B|B].
        -- assert ((x - y) * (x - y) <= 0) by nra. assert (x - y = 0) by nra. lra.
        -- nra.
      * destruct (Rle_dec (glo g) (ghi g)); nra.
    + apply IH; [cbn in HL; lia|]. split; auto. intros q'' Hq''.
      specialize (Hmin (y :: q'') ltac:(constructor; auto)). cbn in Hmin. lra.
Qed.

Theorem nearest_is_projection k orders xm grid comps C pt q suf v :
  valid_grid grid -> kgrid_ok k grid -> coefs_ok k grid comps C -> diff_ok k grid orders ->
  length pt = length grid -> inb (result_shape comps orders) suf = true ->
  closest grid pt q ->
  value_at k orders XNearest grid comps C pt suf v <-> value_at k orders xm grid comps C q suf v.
Proof.
  intros Hv Hk HC Hd HL Hs Hq. pose proof Hq as [Hq1 _]. pose proof (in_domain_length _ _ Hq1).
  rewrite !value_at_iff; auto; try (unfold zlen; lia).
  unfold outcome. rewrite (xpoint_inside xm) by auto. cbn.
  now rewrite <- (closest_proj grid Hv pt q HL Hq).
Qed.

(** *** C09 *)
Theorem constant_zero_outside k orders grid comps C pt suf :
  valid_grid grid -> kgrid_ok k grid -> coefs_ok k grid comps C -> diff_ok k grid orders ->
  length pt = length grid -> inb (result_shape comps orders) suf = true ->
  ~ in_domain grid pt -> value_at k orders XConstant grid comps C pt suf 0.
Proof.
  intros Hv Hk HC Hd HL Hs Ho. apply value_at_iff; auto; try (unfold zlen; lia).
  unfold outcome. cbn. destruct (insideb grid pt) eqn:E; auto. apply insideb_spec in E; tauto.
Qed.
Theorem constant_same_inside k orders xm grid comps C pt suf v :
  valid_grid grid -> kgrid_ok k grid -> coefs_ok k grid comps C -> diff_ok k grid orders ->
  inb (result_shape comps orders) suf = true -> in_domain grid pt ->
  value_at k orders XConstant grid comps C pt suf v <-> value_at k orders xm grid comps C pt suf v.
Proof.
  intros Hv Hk HC Hd Hs Hi. pose proof (in_domain_length _ _ Hi).
  rewrite !value_at_iff; auto; try (unfold zlen; lia).
  unfold outcome. rewrite !xpoint_inside by auto. reflexivity.
Qed.

(** *** C11 *)
Theorem eval_linear_in_coefs k orders xm grid comps C C' s t pt suf v v' :
  valid_grid grid -> kgrid_ok k grid -> coefs_ok k grid comps C -> coefs_ok k grid comps C' ->
  diff_ok k grid orders -> length pt = length grid -> inb (result_shape comps orders) suf = true ->
  value_at k orders xm grid comps C pt suf v -> value_at k orders xm grid comps C' pt suf v' ->
  value_at k orders xm grid comps (alin s C t C') pt suf (s * v + t * v').
Proof.
  intros Hv Hk HC HC' Hd HL Hs.
  assert (HC2 : coefs_ok k grid comps (alin s C t C')) by exact HC.
  rewrite !value_at_iff; auto; try (unfold zlen; lia). intros -> ->.
  unfold outcome. destruct (xpoint xm grid pt); [|ring].
  unfold VR. cbn [acell alin]. rewrite <- !NS_scal, <- NS_plus. reflexivity.
Qed.

(** *** One coordinate at a time *)
Lemma NS_mid l1 : forall n w l2 c, NS (l1 ++ (n, w) :: l2) c =
  zsum n (fun i => w i * NS l1 (fun i1 => NS l2 (fun i2 => c (i1 ++ i :: i2)))).
Proof.
  induction l1 as [|[m u] l1 IH]; cbn; intros n w l2 c; auto.
  rewrite (zsum_ext m _ (fun i => zsum n (fun i0 => w i0 * (u i * NS l1 (fun i1 => NS l2 (fun i2 => c (i :: i1 ++ i0 :: i2))))))).
  - rewrite zsum_swap. apply zsum_ext. intros j Hj. rewrite zsum_scal. reflexivity.
  - intros i Hi. rewrite IH, <- zsum_scal. apply zsum_ext. intros. ring.
Qed.

Lemma combine_app {A B} (l1 l2 : list A) (m1 m2 : list B) : length l1 = length m1 ->
  combine (l1 ++ l2) (m1 ++ m2) = combine l1 m1 ++ combine l2 m2.
Proof. revert m1; induction l1; destruct m1; cbn; intros; try discriminate; auto. f_equal. auto. Qed.

Lemma dims_app k g1 g2 o1 o2 p1 p2 : length o1 = length g1 -> length p1 = length g1 ->
  dims k (g1 ++ g2) (o1 ++ o2) (p1 ++ p2) = dims k g1 o1 p1 ++ dims k g2 o2 p2.
Proof.
  intros H1 H2. unfold dims. rewrite combine_app by lia. apply map2_app.
  rewrite combine_length. lia.
Qed.

(** The value as a function of coordinate [length g1]. *)
Definition slice k g1 g2 o1 o2 (c : list Z -> R) (p1 p2 : list R) (i : Z) : R :=
  NS (dims k g1 o1 p1) (fun i1 => NS (dims k g2 o2 p2) (fun i2 => c (i1 ++ i :: i2))).
Lemma VR_slice k g1 g g2 o1 l o2 c p1 x p2 : length o1 = length g1 -> length p1 = length g1 ->
  VR k (g1 ++ g :: g2) (o1 ++ l :: o2) c (p1 ++ x :: p2) =
  zsum (csize k g) (fun i => phi k l g x i * slice k g1 g2 o1 o2 c p1 p2 i).
Proof.
  intros H1 H2. unfold VR. rewrite dims_app by auto. rewrite dims_cons. rewrite NS_mid. reflexivity.
Qed.

(** *** C12 *)
Lemma Forall2_impl' {A B} (P Q : A -> B -> Prop) l m : (forall a b, P a b -> Q a b) -> Forall2 P l m -> Forall2 Q l m.
Proof. intros H F. induction F; auto. Qed.

Definition near (p : list R) (Q : list R -> Prop) : Prop :=
  exists delta, 0 < delta /\ forall q, Forall2 (fun x y => Rabs (y - x) < delta) p q -> Q q.

#[local] Instance near_filter p : Filter (near p).
Proof.
  constructor.
  - exists 1. split; [lra|auto].
  - intros P Q [d1 [H1 P1]] [d2 [H2 P2]]. exists (Rmin d1 d2). split; [now apply Rmin_glb_lt|].
    intros q Hq. pose proof (Rmin_l d1 d2). pose proof (Rmin_r d1 d2). split; [apply P1|apply P2];
      (eapply Forall2_impl'; [|exact Hq]); cbn; intros; lra.
  - intros P Q H [d [H1 P1]]. exists d. split; auto.
Qed.

Definition cont (p : list R) (F : list R -> R) := filterlim F (near p) (locally (F p)).
Lemma cont_eps p F : cont p F <-> continuous_at F p.
Proof.
  unfold cont, continuous_at. split.
  - intros H eps He. destruct (H (ball (F p) (mkposreal eps He)) (locally_ball _ _)) as [d [Hd Hq]].
    exists d. split; [exact Hd|]. intros q Hq'. apply (Hq q Hq').
  - intros H P [eps He]. destruct (H eps (cond_pos eps)) as [d [Hd Hq]]. exists d. split; [exact Hd|].
    intros q Hq'. apply He. apply Hq. auto.
Qed.
Lemma cont_const p c : cont p (fun _ => c).
Proof. apply filterlim_const. Qed.
Lemma cont_plus p F G : cont p F -> cont p G -> cont p (fun q => F q + G q).
Proof. intros HF HG. eapply filterlim_comp_2; [exact HF|exact HG|]. apply (filterlim_plus (F p) (G p)). Qed.
Lemma cont_mult p F G : cont p F -> cont p G -> cont p (fun q => F q * G q).
Proof. intros HF HG. eapply filterlim_comp_2; [exact HF|exact HG|]. apply (@filterlim_mult R_AbsRing (F p) (G p)). Qed.
Lemma cont_zsum p n F : (forall i, (0 <= i < n)%Z -> cont p (F i)) -> cont p (fun q => zsum n (fun i => F i q)).
Proof.
  destruct (Z_lt_le_dec n 0) as [L|L].
  - intros _. unfold cont. eapply filterlim_ext; [intros; symmetry; apply zsum_0; lia|]. cbn.
    rewrite zsum_0 by lia. apply filterlim_const.
  - revert n L. refine (natlike_ind _ _ _).
    + intros _. apply cont_const.
    + intros n Hn IH H. unfold cont.
      eapply filterlim_ext; [intros; symmetry; unfold Z.succ; apply zsum_S; lia|]. cbn.
      unfold Z.succ. rewrite zsum_S by lia.
      apply (cont_plus p (fun q => zsum n (fun i => F i q)) (F n)); [apply IH; intros|]; apply H; lia.
Qed.
Lemma near_head x p (P : R -> Prop) : locally x P -> near (x :: p) (fun q => P (hd 0 q)).
Proof.
  intros [e He]. exists e. split; [apply cond_pos|]. intros q Hq. inversion Hq; subst. apply He. auto.
Qed.
Lemma near_tail x p (P : list R -> Prop) : near p P -> near (x :: p) (fun q => P (tl q)).
Proof. intros [d [Hd H]]. exists d. split; auto. intros q Hq. inversion Hq; subst. apply H. auto. Qed.
Lemma cont_head x p f : continuity_pt f x -> cont (x :: p) (fun q => f (hd 0 q)).
Proof.
  intros H. apply continuity_pt_filterlim in H. intros P HP. apply (near_head x p (fun y => P (f y))). apply H. exact HP.
Qed.
Lemma cont_tail x p F : cont p F -> cont (x :: p) (fun q => F (tl q)).
Proof. intros H P HP. apply (near_tail x p (fun y => P (F y))). apply H. exact HP. Qed.

Lemma phi_continuous k g i x : (k = 1 \/ k = 3)%Z -> valid_dim g -> continuity_pt (fun x => phi k 0 g x i) x.
Proof. intros [->| ->] H; [now apply phi1_continuous|now apply phi3_continuous]. Qed.

Lemma VR_cont k grid : (k = 1 \/ k = 3)%Z -> valid_grid grid -> forall c pt, length pt = length grid ->
  cont pt (VR k grid (zeros grid) c).
Proof.
  intros Hk Hv. induction Hv as [|g grid Hg Hv IH]; intros c [|x pt] HL; try discriminate.
  - intros P HP. exists 1. split; [lra|]. intros q Hq. inversion Hq; subst. exact (locally_singleton _ _ HP).
  - intros P HP.
    assert (Hc : cont (x :: pt) (fun q => zsum (csize k g) (fun i => phi k 0 g (hd 0 q) i *
       VR k grid (zeros grid) (fun idx => c (i :: idx)) (tl q)))).
    { apply cont_zsum. intros i Hi. apply cont_mult.
      - apply (cont_head x pt (fun y => phi k 0 g y i)). now apply phi_continuous.
      - apply cont_tail. apply IH. cbn in HL; lia. }
    destruct (Hc P HP) as [d [Hd Hq]]. exists d. split; auto. intros q Hq'. specialize (Hq q Hq').
    inversion Hq'; subst. exact Hq.
Qed.

Lemma near_proj grid : valid_grid grid -> forall pt P, length pt = length grid ->
  near (proj_grid grid pt) P -> near pt (fun q => P (proj_grid grid q)).
Proof.
  intros Hv pt P HL [d [Hd H]]. exists d. split; auto. intros q Hq. apply H. clear H.
  revert pt q HL Hq. induction Hv as [|g grid Hg Hv IH]; intros [|x pt] q HL Hq; try discriminate.
  - constructor.
  - inversion Hq as [|x' y pt' q' Hxy Hq']; subst. cbn. constructor.
    + pose proof (glo_ghi g Hg). unfold projR, Rmax, Rmin. revert Hxy. unfold Rabs.
      repeat destruct Rle_dec; repeat destruct Rcase_abs; lra.
    + apply IH; auto.
Qed.

Lemma kgrid_k k grid : kgrid_ok k grid -> (k = 1 \/ k = 3)%Z.
Proof. intros [H|[H _]]; auto. Qed.

Theorem eval_continuous k xm grid comps C suf F :
  valid_grid grid -> kgrid_ok k grid -> coefs_ok k grid comps C -> inb comps suf = true ->
  xm <> XConstant ->
  (forall q, length q = length grid -> value_at k None xm grid comps C q suf (F q)) ->
  forall p, length p = length grid -> continuous_at F p.
Proof.
  intros Hv Hk HC Hs Hx HF p HL. apply cont_eps.
  set (G := fun q => VR k grid (zeros grid) (fun idx => acell C (idx ++ suf)) (match xm with XNearest => proj_grid grid q | _ => q end)).
  assert (E : forall q, length q = length grid -> F q = G q).
  { intros q Hq. specialize (HF q Hq). apply value_at_none in HF; auto. rewrite HF. unfold G. now destruct xm. }
  assert (HG : cont p G).
  { unfold G. pose proof (kgrid_k _ _ Hk) as Hk'. destruct xm; [congruence| |].
    - now apply VR_cont.
    - intros P HP. apply (near_proj grid Hv p (fun q => P (VR k grid (zeros grid) (fun idx => acell C (idx ++ suf)) q)) HL).
      apply (VR_cont k grid Hk' Hv _ (proj_grid grid p)); auto.
      apply in_domain_length. now apply proj_in_domain. }
  intros P HP. rewrite (E p HL) in HP. destruct (HG P HP) as [d [Hd Hq]]. exists d. split; auto.
  intros q Hq'. rewrite E; [now apply Hq|]. apply Forall2_length in Hq'. lia.
Qed.

(** *** C10 *)
Lemma left_slope_affine f x m e : 0 < e -> (forall t, x - e < t <= x -> f t = f x + m * (t - x)) -> left_slope f x m.
Proof.
  intros He H eps Heps. exists e. split; auto. intros h Hh. rewrite (H (x - h)) by lra.
  replace ((f x - (f x + m * (x - h - x))) / h - m) with 0 by (field; lra). rewrite Rabs_R0. auto.
Qed.
Lemma right_slope_affine f x m e : 0 < e -> (forall t, x <= t < x + e -> f t = f x + m * (t - x)) -> right_slope f x m.
Proof.
  intros He H eps Heps. exists e. split; auto. intros h Hh. rewrite (H (x + h)) by lra.
  replace ((f x + m * (x + h - x) - f x) / h - m) with 0 by (field; lra). rewrite Rabs_R0. auto.
Qed.
Lemma derive_slopes f x m : is_derive f x m -> left_slope f x m /\ right_slope f x m.
Proof.
  intros H. apply is_derive_Reals in H. split; intros eps He; destruct (H eps He) as [d Hd]; exists d; (split; [apply cond_pos|]); intros h Hh.
  - specialize (Hd (- h) ltac:(lra) ltac:(rewrite Rabs_Ropp, Rabs_right; lra)).
    replace ((f x - f (x - h)) / h) with ((f (x + - h) - f x) / - h); auto. unfold Rminus. field. lra.
  - apply Hd; [lra|]. rewrite Rabs_right; lra.
Qed.

Lemma ghi_gnode g : valid_dim g -> ghi g = gnode g (gsize g - 1).
Proof. reflexivity. Qed.
Lemma glo_gnode g : valid_dim g -> glo g = gnode g 0.
Proof. reflexivity. Qed.

Definition wsum k l g (W : Z -> R) t := zsum (csize k g) (fun i => phi k l g t i * W i).

Lemma adm_left g t : valid_dim g -> t <= gnode g 1 -> admissible g 0 t.
Proof. intros H Ht. pose proof (gsize_IZR g H). destruct H as [H _]. split; [lia|]. split; intros; [lia|]. exact Ht. Qed.
Lemma adm_right g t : valid_dim g -> gnode g (gsize g - 2) <= t -> admissible g (gsize g - 2) t.
Proof. intros H Ht. destruct H as [H _]. split; [lia|]. split; intros; [auto|lia]. Qed.

Lemma wsum1_affine g W c x t : valid_dim g -> admissible g c x -> admissible g c t ->
  wsum 1 0 g W t = wsum 1 0 g W x + zsum (csize 1 g) (fun i => dpiece1 g i c * W i) * (t - x).
Proof.
  intros H Hx Ht. unfold wsum. rewrite <- zsum_scal_r, <- zsum_plus. apply zsum_ext. intros i Hi.
  rewrite !(phi1_any g i c) by auto. rewrite (piece1_affine g i c t x). ring.
Qed.

Lemma is_derive_zsum n (f : Z -> R -> R) (df : Z -> R) x :
  (forall i, (0 <= i < n)%Z -> is_derive (f i) x (df i)) -> is_derive (fun t => zsum n (fun i => f i t)) x (zsum n df).
Proof.
  destruct (Z_lt_le_dec n 0) as [L|L].
  - intros _. rewrite zsum_0 by lia. eapply is_derive_ext; [intros; symmetry; apply zsum_0; lia|]. apply (@is_derive_const R_AbsRing R_NormedModule).
  - revert n L. refine (natlike_ind _ _ _).
    + intros _. cbn. apply (@is_derive_const R_AbsRing R_NormedModule).
    + intros n Hn IH H. unfold Z.succ. rewrite zsum_S by lia.
      eapply is_derive_ext; [intros; symmetry; apply zsum_S; lia|]. cbn.
      apply (is_derive_plus (fun t => zsum n (fun i => f i t)) (f n)); [apply IH; intros|]; apply H; lia.
Qed.

Lemma wsum3_derive a b n W x : valid_dim (Unif a b n) ->
  is_derive (wsum 3 0 (Unif a b n) W) x (wsum 3 1 (Unif a b n) W x).
Proof.
  intros H. apply (is_derive_zsum _ (fun i t => phi 3 0 (Unif a b n) t i * W i)). intros i Hi.
  rewrite Rmult_comm. apply (is_derive_ext (fun t => W i * phi 3 0 (Unif a b n) t i)); [intros; apply Rmult_comm|].
  apply is_derive_scal. now apply phi3_derive.
Qed.


Lemma piece3_affine_r g i c x t : 1 <= lamC g c x -> 1 <= lamC g c t ->
  piece3 g i c t = piece3 g i c x + dpiece3 g i c x * (t - x).
Proof.
  intros Hx Ht. unfold piece3, dpiece3. destruct (_ && _); [|ring].
  assert (A : forall l, 1 <= l -> ebsp (i - c) l = bsp (i - c) 1 + dbsp (i - c) 1 * (l - 1)).
  { intros l Hl. unfold ebsp. rewrite (Rlt_bool_false l 0) by lra. destruct (Rlt_bool_spec 1 l); auto. replace l with 1 by lra. ring. }
  assert (B : edbsp (i - c) (lamC g c x) = dbsp (i - c) 1).
  { unfold edbsp. rewrite (Rlt_bool_false _ 0) by lra. destruct (Rlt_bool_spec 1 (lamC g c x)); auto. now replace (lamC g c x) with 1 by lra. }
  rewrite !A, B by auto. unfold lamC, Rdiv. ring.
Qed.
Lemma piece3_affine_l g i c x t : lamC g c x <= 0 -> lamC g c t <= 0 ->
  piece3 g i c t = piece3 g i c x + dpiece3 g i c x * (t - x).
Proof.
  intros Hx Ht. unfold piece3, dpiece3. destruct (_ && _); [|ring].
  assert (A : forall l, l <= 0 -> ebsp (i - c) l = bsp (i - c) 0 + dbsp (i - c) 0 * l).
  { intros l Hl. unfold ebsp. destruct (Rlt_bool_spec l 0); auto. rewrite (Rlt_bool_false 1 l) by lra. replace l with 0 by lra. ring. }
  assert (B : edbsp (i - c) (lamC g c x) = dbsp (i - c) 0).
  { unfold edbsp. destruct (Rlt_bool_spec (lamC g c x) 0); auto. rewrite (Rlt_bool_false 1) by lra. now replace (lamC g c x) with 0 by lra. }
  rewrite !A, B by auto. unfold lamC, Rdiv. ring.
Qed.

Lemma wsum_border k g W : (k = 1 \/ k = 3 /\ exists a b n, g = Unif a b n)%Z -> valid_dim g ->
  (exists m, left_slope (wsum k 0 g W) (ghi g) m /\
     forall t, ghi g <= t -> wsum k 0 g W t = wsum k 0 g W (ghi g) + m * (t - ghi g)) /\
  (exists m, right_slope (wsum k 0 g W) (glo g) m /\
     forall t, t <= glo g -> wsum k 0 g W t = wsum k 0 g W (glo g) + m * (t - glo g)).
Proof.
  intros Hk H. pose proof H as [Hn _].
  pose proof (gnode_step g 0 H ltac:(lia)) as S0. cbn [Z.add] in S0.
  pose proof (gnode_step g (gsize g - 2) H ltac:(lia)) as S1. replace (gsize g - 2 + 1)%Z with (gsize g - 1)%Z in S1 by lia.
  fold (glo g) in S0. fold (ghi g) in S1.
  destruct Hk as [->|[-> (a & b & n & ->)]].
  - split.
    + exists (zsum (csize 1 g) (fun i => dpiece1 g i (gsize g - 2) * W i)). split.
      * apply left_slope_affine with (ghi g - gnode g (gsize g - 2)); [lra|]. intros t Ht.
        apply wsum1_affine; auto; apply adm_right; auto; lra.
      * intros t Ht. apply wsum1_affine; auto; apply adm_right; auto; lra.
    + exists (zsum (csize 1 g) (fun i => dpiece1 g i 0 * W i)). split.
      * apply right_slope_affine with (gnode g 1 - glo g); [lra|]. intros t Ht.
        apply wsum1_affine; auto; apply adm_left; auto; lra.
      * intros t Ht. apply wsum1_affine; auto; apply adm_left; auto; lra.
  - set (g := Unif a b n) in *. split.
    + exists (wsum 3 1 g W (ghi g)). split; [apply derive_slopes; now apply wsum3_derive|].
      intros t Ht. unfold wsum. rewrite <- zsum_scal_r, <- zsum_plus. apply zsum_ext. intros i Hi.
      assert (A1 : admissible g (gsize g - 2) t) by (apply adm_right; auto; lra).
      assert (A2 : admissible g (gsize g - 2) (ghi g)) by (apply adm_right; auto; lra).
      assert (E : phi 3 1 g (ghi g) i = dpiece3 g i (gsize g - 2) (ghi g)).
      { apply (glue_any g (fun x => phi 3 1 g x i) (dpiece3 g i) H); auto.
        - intros; now apply phi3_dpiece.
        - intros; now apply dpiece3_match. }
      rewrite !(phi3_any g i (gsize g - 2)), E by auto.
      assert (L : forall s, ghi g <= s -> 1 <= lamC g (gsize g - 2) s).
      { intros s Hs. unfold lamC. replace (gsize g - 2 + 1)%Z with (gsize g - 1)%Z by lia. fold (ghi g).
        apply Rmult_le_reg_r with (ghi g - gnode g (gsize g - 2)); [lra|]. unfold Rdiv.
        rewrite Rmult_assoc, Rinv_l by lra. lra. }
      rewrite (piece3_affine_r g i (gsize g - 2) (ghi g) t) by (apply L; lra). ring.
    + exists (wsum 3 1 g W (glo g)). split; [apply derive_slopes; now apply wsum3_derive|].
      intros t Ht. unfold wsum. rewrite <- zsum_scal_r, <- zsum_plus. apply zsum_ext. intros i Hi.
      assert (A1 : admissible g 0 t) by (apply adm_left; auto; lra).
      assert (A2 : admissible g 0 (glo g)) by (apply adm_left; auto; lra).
      assert (E : phi 3 1 g (glo g) i = dpiece3 g i 0 (glo g)).
      { apply (glue_any g (fun x => phi 3 1 g x i) (dpiece3 g i) H); auto.
        - intros; now apply phi3_dpiece.
        - intros; now apply dpiece3_match. }
      rewrite !(phi3_any g i 0), E by auto.
      assert (L : forall s, s <= glo g -> lamC g 0 s <= 0).
      { intros s Hs. unfold lamC. fold (glo g). cbn [Z.add].
        apply Rmult_le_reg_r with (gnode g 1 - glo g); [lra|]. unfold Rdiv.
        rewrite Rmult_assoc, Rinv_l by lra. lra. }
      rewrite (piece3_affine_l g i 0 (glo g) t) by (apply L; lra). ring.
Qed.

Lemma slope_ext f g x m : (forall t, f t = g t) -> left_slope g x m -> left_slope f x m.
Proof. intros E H eps He. destruct (H eps He) as [d [Hd H']]. exists d. split; auto. intros h Hh. rewrite !E. auto. Qed.
Lemma slope_ext_r f g x m : (forall t, f t = g t) -> right_slope g x m -> right_slope f x m.
Proof. intros E H eps He. destruct (H eps He) as [d [Hd H']]. exists d. split; auto. intros h Hh. rewrite !E. auto. Qed.

Lemma zeros_app g1 g2 : zeros (g1 ++ g2) = zeros g1 ++ zeros g2.
Proof. apply map_app. Qed.

Lemma all_unif_mid (g1 : list (gdim R)) g g2 : all_uniform (g1 ++ g :: g2) -> exists a b n, g = Unif a b n.
Proof.
  intros H. apply Forall_elt in H. destruct g; [eauto|exfalso; apply H; cbn; auto].
Qed.

Theorem linear_extrapolation k g1 g g2 comps C p1 p2 suf F :
  valid_grid (g1 ++ g :: g2) -> kgrid_ok k (g1 ++ g :: g2) -> coefs_ok k (g1 ++ g :: g2) comps C ->
  inb comps suf = true -> length p1 = length g1 -> length p2 = length g2 ->
  (forall t, value_at k None XLinear (g1 ++ g :: g2) comps C (p1 ++ t :: p2) suf (F t)) ->
  (exists m, left_slope F (ghi g) m /\ forall t, ghi g <= t -> F t = F (ghi g) + m * (t - ghi g)) /\
  (exists m, right_slope F (glo g) m /\ forall t, t <= glo g -> F t = F (glo g) + m * (t - glo g)).
Proof.
  intros Hv Hk HC Hs H1 H2 HF.
  set (W := slice k g1 g2 (zeros g1) (zeros g2) (fun idx => acell C (idx ++ suf)) p1 p2).
  assert (E : forall t, F t = wsum k 0 g W t).
  { intros t. specialize (HF t). apply value_at_none in HF; auto; [|rewrite !app_length; cbn; lia].
    rewrite HF. cbn [xpoint]. rewrite zeros_app. unfold zeros at 2. cbn [map]. rewrite VR_slice; auto.
    apply zeros_length. }
  assert (Hg : valid_dim g) by (now apply Forall_elt in Hv).
  destruct (wsum_border k g W) as [[m [A1 A2]] [m' [B1 B2]]]; auto.
  { destruct Hk as [->|[-> Hu]]; auto. right. split; auto. eapply all_unif_mid; eauto. }
  split.
  - exists m. split; [eapply slope_ext; eauto|]. intros t Ht. rewrite !E. auto.
  - exists m'. split; [eapply slope_ext_r; eauto|]. intros t Ht. rewrite !E. auto.
Qed.

(** *** Derivatives *)
Lemma value_at_diff k xm grid comps C pt os j oo comp v :
  valid_grid grid -> kgrid_ok k grid -> coefs_ok k grid comps C -> diff_ok k grid (Some os) ->
  length pt = length grid -> inb comps comp = true ->
  nth_error os j = Some oo ->
  value_at k (Some os) xm grid comps C pt (comp ++ [Z.of_nat j]) v <->
  v = match xpoint xm grid pt with
      | Some q => VR k grid oo (fun idx => acell C (idx ++ comp)) q
      | None => 0
      end.
Proof.
  intros Hv Hk HC Hd HL Hs Hn.
  assert (Hj : (j < length os)%nat) by (apply nth_error_Some; congruence).
  rewrite value_at_iff; auto.
  - unfold outcome, diff_of, EvalMaster.sel_oo. rewrite last_last, Nat2Z.id, (nth_error_nth _ _ _ Hn).
    assert (E : comp_of comps (comp ++ [Z.of_nat j]) = comp).
    { destruct (coefs_comps _ _ _ _ HC) as [->|[nx ->]]; destruct comp as [|i [|]]; cbn in Hs; try lia; reflexivity. }
    rewrite E. reflexivity.
  - unfold zlen; lia.
  - unfold result_shape. apply inb_app_r; auto. cbn. unfold zlen. lia.
Qed.

Lemma value_at_in_comps os j (oo : list Z) comps comp : nth_error os j = Some oo -> inb comps comp = true ->
  inb (result_shape comps (Some os)) (comp ++ [Z.of_nat j]) = true.
Proof.
  intros Hn Hs. assert (Hj : (j < length os)%nat) by (apply nth_error_Some; congruence).
  unfold result_shape. apply inb_app_r; auto. cbn. unfold zlen. lia.
Qed.

Theorem zero_orders k xm grid comps C pt os j comp v :
  valid_grid grid -> kgrid_ok k grid -> coefs_ok k grid comps C -> diff_ok k grid (Some os) ->
  length pt = length grid -> inb comps comp = true ->
  nth_error os j = Some (map (fun _ => 0%Z) grid) ->
  value_at k (Some os) xm grid comps C pt (comp ++ [Z.of_nat j]) v <->
  value_at k None xm grid comps C pt comp v.
Proof.
  intros Hv Hk HC Hd HL Hs Hn. rewrite (value_at_diff k xm grid comps C pt os j _ comp v) by eauto.
  rewrite value_at_none; auto. reflexivity.
Qed.

Lemma slice_value k g1 g g2 comps C p1 p2 os j o1 l o2 comp F :
  valid_grid (g1 ++ g :: g2) -> kgrid_ok k (g1 ++ g :: g2) -> coefs_ok k (g1 ++ g :: g2) comps C ->
  diff_ok k (g1 ++ g :: g2) (Some os) ->
  inb comps comp = true -> length p1 = length g1 -> length p2 = length g2 -> length o1 = length g1 ->
  nth_error os j = Some (o1 ++ l :: o2) ->
  (forall t, value_at k (Some os) XLinear (g1 ++ g :: g2) comps C (p1 ++ t :: p2) (comp ++ [Z.of_nat j]) (F t)) ->
  forall t, F t = wsum k l g (slice k g1 g2 o1 o2 (fun idx => acell C (idx ++ comp)) p1 p2) t.
Proof.
  intros Hv Hk HC Hd Hs H1 H2 H3 Hn HF t. specialize (HF t).
  rewrite (value_at_diff k XLinear _ comps C _ os j _ comp) in HF by (eauto; rewrite !app_length; cbn; lia).
  rewrite HF. cbn [xpoint]. now rewrite VR_slice.
Qed.

(** *** C19 *)
Theorem cubic_partial_derivative g1 g g2 comps C p1 p2 os j os' j' o1 o2 comp F G :
  let grid := g1 ++ g :: g2 in
  valid_grid grid -> all_uniform grid -> coefs_ok 3 grid comps C ->
  diff_ok 3 grid (Some os) -> diff_ok 3 grid (Some os') ->
  inb comps comp = true -> length p1 = length g1 -> length p2 = length g2 -> length o1 = length g1 ->
  nth_error os j = Some (o1 ++ 0%Z :: o2) -> nth_error os' j' = Some (o1 ++ 1%Z :: o2) ->
  (forall t, value_at 3 (Some os) XLinear grid comps C (p1 ++ t :: p2) (comp ++ [Z.of_nat j]) (F t)) ->
  (forall t, value_at 3 (Some os') XLinear grid comps C (p1 ++ t :: p2) (comp ++ [Z.of_nat j']) (G t)) ->
  forall t, derivable_pt_lim F t (G t).
Proof.
  intros grid Hv Hu HC Hd Hd' Hs H1 H2 H3 Hn Hn' HF HG t.
  assert (Hk : kgrid_ok 3 grid) by (right; auto).
  pose proof (slice_value 3 g1 g g2 comps C p1 p2 os j o1 0 o2 comp F Hv Hk HC Hd Hs H1 H2 H3 Hn HF) as EF.
  pose proof (slice_value 3 g1 g g2 comps C p1 p2 os' j' o1 1 o2 comp G Hv Hk HC Hd' Hs H1 H2 H3 Hn' HG) as EG.
  destruct (all_unif_mid _ _ _ Hu) as (a & b & n & ->).
  apply is_derive_Reals. rewrite EG. eapply is_derive_ext; [intros; symmetry; apply EF|].
  apply wsum3_derive. now apply Forall_elt in Hv.
Qed.

(** *** C21, C22 *)
Definition off_nodes (g : gdim R) (t : R) : Prop := forall i, (0 <= i < gsize g)%Z -> t <> gnode g i.

Lemma cell_locally g t : valid_dim g -> off_nodes g t -> locally t (fun s => cellR g s = cellR g t).
Proof.
  intros H Ht. pose proof (cellR_admissible g t H) as (C1 & C2 & C3). pose proof H as [Hn _]. set (c := cellR g t) in *.
  assert (L : exists e, 0 < e /\ forall s, Rabs (s - t) < e -> ((0 < c)%Z -> gnode g c < s) /\ ((c < gsize g - 2)%Z -> s < gnode g (c + 1))).
  { pose proof (Ht c ltac:(lia)) as N1. pose proof (Ht (c + 1)%Z ltac:(lia)) as N2.
    set (e1 := if (0 <? c)%Z then t - gnode g c else 1). set (e2 := if (c <? gsize g - 2)%Z then gnode g (c + 1) - t else 1).
    assert (P1 : 0 < e1). { unfold e1. destruct (Z.ltb_spec 0 c); [|lra]. specialize (C2 ltac:(lia)). lra. }
    assert (P2 : 0 < e2). { unfold e2. destruct (Z.ltb_spec c (gsize g - 2)); [|lra]. specialize (C3 ltac:(lia)). lra. }
    exists (Rmin e1 e2). split; [now apply Rmin_glb_lt|]. intros s Hs.
    pose proof (Rmin_l e1 e2). pose proof (Rmin_r e1 e2). apply Rabs_def2 in Hs. split; intros Hc.
    - unfold e1 in *. destruct (Z.ltb_spec 0 c); [|lia]. lra.
    - unfold e2 in *. destruct (Z.ltb_spec c (gsize g - 2)); [|lia]. lra. }
  destruct L as [e [He L]]. exists (mkposreal e He). intros s Hs. specialize (L s Hs) as [L1 L2].
  pose proof (cellR_admissible g s H) as Hs'. destruct (Z.lt_trichotomy c (cellR g s)) as [Q|[Q|Q]]; auto.
  - assert (A : admissible g c s). { split; [lia|]. split; intros; [specialize (L1 ltac:(lia)); lra|specialize (L2 ltac:(lia)); lra]. }
    destruct (admissible_unique g c (cellR g s) s H A Hs' Q) as [E1 E2]. destruct Hs' as [B _]. specialize (L2 ltac:(lia)). rewrite E1 in E2. lra.
  - assert (A : admissible g c s). { split; [lia|]. split; intros; [specialize (L1 ltac:(lia)); lra|specialize (L2 ltac:(lia)); lra]. }
    destruct (admissible_unique g (cellR g s) c s H Hs' A Q) as [E1 E2]. destruct Hs' as [B _]. specialize (L1 ltac:(lia)). lra.
Qed.

(** spacing correction: what the code multiplies the true slope by *)
Definition slope_factor (g : gdim R) : R :=
  match g with Unif a b n => ((b - a) / (IZR n - 1)) * ((b - a) / (IZR n - 1)) | Nonunif _ => 1 end.

Lemma phi1_dpiece g i x : valid_dim g -> phi 1 1 g x i = slope_factor g * dpiece1 g i (cellR g x).
Proof.
  intros H. pose proof (cellR_range g x H) as Hr. pose proof (gnode_step g (cellR g x) H ltac:(lia)) as Hst.
  assert (W : wR 1 1 (lamR g x) (delR g x) = [- / delR g x; / delR g x]).
  { unfold wR, blend. cbn. unfold blend_linear. cbn. pose proof (delR_pos g x H). rewrite !divE_R by lra. cbn.
    f_equal; [|f_equal]; unfold Rdiv; ring. }
  assert (D : / delR g x = slope_factor g * / (gnode g (cellR g x + 1) - gnode g (cellR g x))).
  { destruct g as [a b n|gc].
    - rewrite unif_gap by auto. pose proof (gsize_IZR _ H). destruct H as [_ H]. cbn in *. unfold delR. cbn. field. split; lra.
    - unfold delR. cbn -[gnode Z.add]. ring. }
  unfold phi, dpiece1. rewrite W.
  destruct (Z.eqb_spec i (cellR g x)) as [->|N1].
  - replace (_ && _) with true by lia. rewrite Z.sub_diag. cbn [nth Z.to_nat]. rewrite D. ring.
  - destruct (Z.eqb_spec i (cellR g x + 1)) as [->|N2].
    + replace (_ && _) with true by lia. replace (cellR g x + 1 - cellR g x)%Z with 1%Z by lia.
      change (Z.to_nat 1) with 1%nat. cbn [nth]. now rewrite D.
    + replace (_ && _) with false by lia. ring.
Qed.
Lemma phi1_high g i x l : (2 <= l)%Z -> phi 1 l g x i = 0.
Proof.
  intros H. unfold phi. assert (W : wR 1 l (lamR g x) (delR g x) = [0; 0]).
  { unfold wR, blend. cbn. unfold blend_linear. replace (l =? 0)%Z with false by lia. replace (l =? 1)%Z with false by lia. reflexivity. }
  rewrite W. destruct (_ && _); auto. destruct (Z.to_nat (i - cellR g x)) as [|[|[|]]]; reflexivity.
Qed.

Lemma wsum1_derive g W t : valid_dim g -> off_nodes g t ->
  is_derive (wsum 1 0 g W) t (zsum (csize 1 g) (fun i => dpiece1 g i (cellR g t) * W i)).
Proof.
  intros H Ht. pose proof (cell_locally g t H Ht) as L.
  eapply is_derive_ext_loc with (f := fun s => wsum 1 0 g W t + zsum (csize 1 g) (fun i => dpiece1 g i (cellR g t) * W i) * (s - t)).
  - eapply filter_imp; [|exact L]. intros s Hs. symmetry. apply wsum1_affine; auto; [|rewrite <- Hs]; now apply cellR_admissible.
  - auto_derive; auto. ring.
Qed.

Lemma wsum1_1 g W t : valid_dim g -> wsum 1 1 g W t = slope_factor g * zsum (csize 1 g) (fun i => dpiece1 g i (cellR g t) * W i).
Proof.
  intros H. unfold wsum. rewrite <- zsum_scal. apply zsum_ext. intros. rewrite phi1_dpiece by auto. ring.
Qed.
Lemma wsum1_high g W t l : (2 <= l)%Z -> wsum 1 l g W t = 0.
Proof. intros H. unfold wsum. rewrite (zsum_ext _ _ (fun _ => 0)); [|intros; rewrite phi1_high by auto; ring]. apply zsum_zero. auto. Qed.

Section LinDiff.
Variables (g1 : list (gdim R)) (g : gdim R) (g2 : list (gdim R)) (comps : list Z) (C : arr R)
  (p1 p2 : list R) (os os' : list (list Z)) (j j' : nat) (o1 o2 : list Z) (comp : list Z) (F G : R -> R) (l : Z).
Let grid := g1 ++ g :: g2.
Hypothesis Hv : valid_grid grid.
Hypothesis HC : coefs_ok 1 grid comps C.
Hypothesis Hd : diff_ok 1 grid (Some os).
Hypothesis Hd' : diff_ok 1 grid (Some os').
Hypothesis Hs : inb comps comp = true.
Hypothesis H1 : length p1 = length g1.
Hypothesis H2 : length p2 = length g2.
Hypothesis H3 : length o1 = length g1.
Hypothesis Hn : nth_error os j = Some (o1 ++ l :: o2).
Hypothesis Hn' : nth_error os' j' = Some (o1 ++ (l + 1)%Z :: o2).
Hypothesis HF : forall t, value_at 1 (Some os) XLinear grid comps C (p1 ++ t :: p2) (comp ++ [Z.of_nat j]) (F t).
Hypothesis HG : forall t, value_at 1 (Some os') XLinear grid comps C (p1 ++ t :: p2) (comp ++ [Z.of_nat j']) (G t).

Lemma lindiff_pos : (0 <= l)%Z.
Proof.
  destruct Hd as [_ Hf]. cbn in Hf. rewrite Forall_forall in Hf. specialize (Hf _ (nth_error_In _ _ Hn)).
  apply Forall_elt in Hf. lia.
Qed.
Theorem linear_partial_high t : (1 <= l)%Z -> off_nodes g t -> derivable_pt_lim F t (G t).
Proof.
  intros Hl Ht. assert (Hg : valid_dim g) by (now apply Forall_elt in Hv).
  assert (Hk : kgrid_ok 1 grid) by (left; auto).
  pose proof (slice_value 1 g1 g g2 comps C p1 p2 os j o1 l o2 comp F Hv Hk HC Hd Hs H1 H2 H3 Hn HF) as EF.
  pose proof (slice_value 1 g1 g g2 comps C p1 p2 os' j' o1 _ o2 comp G Hv Hk HC Hd' Hs H1 H2 H3 Hn' HG) as EG.
  rewrite EG, wsum1_high by lia. apply is_derive_Reals.
  eapply is_derive_ext_loc with (f := fun _ => F t); [|apply (@is_derive_const R_AbsRing R_NormedModule)].
  eapply filter_imp; [|exact (cell_locally g t Hg Ht)]. cbn. intros s E. rewrite !EF.
  destruct (Z.eq_dec l 1) as [->|N]; [rewrite !wsum1_1 by auto; now rewrite E|now rewrite !wsum1_high by lia].
Qed.
Theorem linear_partial_factor t : l = 0%Z -> off_nodes g t ->
  exists D, derivable_pt_lim F t D /\ G t = slope_factor g * D.
Proof.
  intros -> Ht. assert (Hg : valid_dim g) by (now apply Forall_elt in Hv).
  assert (Hk : kgrid_ok 1 grid) by (left; auto).
  pose proof (slice_value 1 g1 g g2 comps C p1 p2 os j o1 0 o2 comp F Hv Hk HC Hd Hs H1 H2 H3 Hn HF) as EF.
  pose proof (slice_value 1 g1 g g2 comps C p1 p2 os' j' o1 _ o2 comp G Hv Hk HC Hd' Hs H1 H2 H3 Hn' HG) as EG.
  eexists. split.
  - apply is_derive_Reals. eapply is_derive_ext; [intros; symmetry; apply EF|]. now apply wsum1_derive.
  - rewrite EG. now apply wsum1_1.
Qed.
End LinDiff.
