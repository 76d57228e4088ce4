(** Evaluation over the reals: brackets, cardinal functions, and the description of the
    result of [eval_spline] as a tensor sum. *)
From Coq Require Import ZArith List Bool Reals Lia Lra Psatz ZifyBool.
From Flocq Require Import Core.Raux.
From Verif Require Import Base BaseFacts SplineModel Spec EvalGeneric EvalMaster EvalProps EvalValue RSum.
Import ListNotations.
Open Scope R_scope.

(** ** Comparisons *)
Lemma Rltb_true x y : Rlt_bool x y = true <-> x < y.
Proof. destruct (Rlt_bool_spec x y); split; intros; try lra; discriminate. Qed.
Lemma Rltb_false x y : Rlt_bool x y = false <-> y <= x.
Proof. destruct (Rlt_bool_spec x y); split; intros; try lra; try discriminate; auto. Qed.
Lemma Reqb0_false x : x <> 0 -> Reqb0 x = false.
Proof. intros. unfold Reqb0. now apply Req_bool_false. Qed.
Lemma divE_R (x y : R) : y <> 0 -> divE x y = Ok (x / y).
Proof. intros H. unfold divE. cbn. now rewrite Reqb0_false. Qed.

Lemma pymax_R (x y : R) : pymax x y = Rmax x y.
Proof. unfold pymax; cbn. unfold Rmax. destruct (Rlt_bool_spec x y), (Rle_dec x y); lra. Qed.
Lemma pymin_R (x y : R) : pymin x y = Rmin x y.
Proof. unfold pymin; cbn. unfold Rmin. destruct (Rlt_bool_spec y x), (Rle_dec x y); lra. Qed.

(** ** Grid geometry *)
Lemma gsize_IZR (g : gdim R) : valid_dim g -> 1 <= IZR (gsize g) - 1.
Proof. intros [H _]. apply IZR_le in H. cbn in H. lra. Qed.

Lemma unif_step a b n : valid_dim (Unif a b n) -> 0 < (b - a) / (IZR n - 1).
Proof.
  intros H. pose proof (gsize_IZR _ H). destruct H as [_ H]. cbn in *.
  apply Rdiv_lt_0_compat; lra.
Qed.

Lemma gnode_step g i : valid_dim g -> (0 <= i < gsize g - 1)%Z -> gnode g i < gnode g (i + 1).
Proof.
  intros Hv Hi. destruct g as [a b n|gc].
  - pose proof (unif_step _ _ _ Hv). cbn. rewrite plus_IZR. lra.
  - apply Hv. exact Hi.
Qed.

Lemma gnode_lt g i j : valid_dim g -> (0 <= i)%Z -> (i < j)%Z -> (j <= gsize g - 1)%Z -> gnode g i < gnode g j.
Proof.
  intros Hv Hi Hij Hj.
  assert (G : forall m, (0 <= m)%Z -> (i + 1 + m <= gsize g - 1)%Z -> gnode g i < gnode g (i + 1 + m)).
  { apply (zsum_ind (fun m => (i + 1 + m <= gsize g - 1)%Z -> gnode g i < gnode g (i + 1 + m))).
    - intros. rewrite Z.add_0_r. apply gnode_step; auto; lia.
    - intros m Hm IH H. specialize (IH ltac:(lia)).
      pose proof (gnode_step g (i + 1 + m) Hv ltac:(lia)).
      replace (i + 1 + (m + 1))%Z with (i + 1 + m + 1)%Z by lia. lra. }
  specialize (G (j - i - 1)%Z ltac:(lia)). replace (i + 1 + (j - i - 1))%Z with j in G by lia.
  apply G; lia.
Qed.
Lemma gnode_le g i j : valid_dim g -> (0 <= i)%Z -> (i <= j)%Z -> (j <= gsize g - 1)%Z -> gnode g i <= gnode g j.
Proof.
  intros Hv Hi Hij Hj. destruct (Z.eq_dec i j); [subst; lra|]. left. apply gnode_lt; auto; lia.
Qed.
Lemma glo_ghi g : valid_dim g -> glo g < ghi g.
Proof. intros H. apply gnode_lt; auto; try lia. destruct H. lia. Qed.
Lemma gnode_in_dim g i : valid_dim g -> (0 <= i < gsize g)%Z -> in_dim g (gnode g i).
Proof. intros H Hi. split; apply gnode_le; auto; lia. Qed.

Lemma glo_unif a b n : glo (Unif a b n) = a.
Proof. unfold glo; cbn. lra. Qed.
Lemma ghi_unif a b n : valid_dim (Unif a b n) -> ghi (Unif a b n) = b.
Proof.
  intros H. pose proof (gsize_IZR _ H). cbn in *. unfold ghi; cbn. rewrite minus_IZR. field. lra.
Qed.

(** ** Brackets *)
Definition gpR (g : gdim R) : @gpar R :=
  match g with
  | Unif a b n => PU a b n ((IZR n - 1) / (b - a))
  | Nonunif gc => PN gc (zlen gc) (Some (glo g, ghi g))
  end.

Definition cellR (g : gdim R) (x : R) : Z :=
  match g with
  | Unif a b n => Z.max (Z.min (Zfloor ((x - a) * ((IZR n - 1) / (b - a)))) (n - 2)) 0
  | Nonunif gc => Z.min (Z.max (searchsorted gc x - 1) 0) (zlen gc - 2)
  end.
Definition lamR (g : gdim R) (x : R) : R :=
  (x - gnode g (cellR g x)) / (gnode g (cellR g x + 1) - gnode g (cellR g x)).
Definition delR (g : gdim R) (x : R) : R :=
  match g with
  | Unif a b n => (IZR n - 1) / (b - a)
  | Nonunif gc => gnode g (cellR g x + 1) - gnode g (cellR g x)
  end.

Lemma recoverN_R g : valid_dim g -> recoverN g = Ok (gpR g).
Proof.
  intros H. destruct g as [a b n|gc]; cbn [recoverN gpR].
  - rewrite divE_R; [reflexivity|]. destruct H as [_ H]; cbn in *. lra.
  - destruct H as [H _]. cbn in H.
    rewrite (lget_ok gc 0 0) by lia. rewrite (lget_ok gc _ 0) by lia. reflexivity.
Qed.

Lemma cellR_range g x : valid_dim g -> (0 <= cellR g x <= gsize g - 2)%Z.
Proof. intros [H _]. destruct g; cbn in *; lia. Qed.

Lemma cell_gap g x : valid_dim g -> 0 < gnode g (cellR g x + 1) - gnode g (cellR g x).
Proof.
  intros H. pose proof (cellR_range g x H). pose proof (gnode_step g (cellR g x) H ltac:(lia)). lra.
Qed.

Lemma bracket_R g x : valid_dim g -> bracket (gpR g) x = Ok (cellR g x, lamR g x, delR g x).
Proof.
  intros H. pose proof (cellR_range g x H) as Hc. pose proof (cell_gap g x H) as Hgap.
  destruct g as [a b n|gc]; cbn [bracket gpR].
  - cbn -[Z.max Z.min]. f_equal. f_equal. f_equal.
    unfold lamR, cellR. cbn -[Z.max Z.min].
    set (c := Z.max _ _). rewrite plus_IZR.
    pose proof (gsize_IZR _ H). pose proof (unif_step _ _ _ H). destruct H as [_ H]; cbn in *.
    field. split; [lra|]. intros E. lra.
  - cbn -[Z.max Z.min] in Hgap, Hc |- *. rewrite (lget_ok gc _ 0) by lia. cbn [bind].
    rewrite (lget_ok gc _ 0) by lia. cbn [bind].
    rewrite divE_R. reflexivity. lra.
Qed.

Lemma delR_pos g x : valid_dim g -> 0 < delR g x.
Proof.
  intros H. destruct g as [a b n|gc].
  - pose proof (gsize_IZR _ H). destruct H as [_ H]; cbn in *. apply Rdiv_lt_0_compat; lra.
  - apply cell_gap. exact H.
Qed.

(** The defining facts of a bracket. *)
Lemma lamR_eq g x : valid_dim g ->
  x = gnode g (cellR g x) + lamR g x * (gnode g (cellR g x + 1) - gnode g (cellR g x)).
Proof. intros H. pose proof (cell_gap g x H). unfold lamR. field. lra. Qed.

Lemma searchsorted_spec gc x :
  (0 <= searchsorted gc x <= zlen gc)%Z /\
  (forall i, (0 <= i < searchsorted gc x)%Z -> nth (Z.to_nat i) gc 0 < x) /\
  ((searchsorted gc x < zlen gc)%Z -> x <= nth (Z.to_nat (searchsorted gc x)) gc 0).
Proof.
  induction gc as [|g gc IH]; cbn [searchsorted].
  - unfold zlen; cbn. repeat split; try lia.
  - rewrite zlen_cons. destruct IH as [I1 [I2 I3]].
    change (n_ltb g x) with (Rlt_bool g x).
    destruct (Rlt_bool_spec g x).
    + split; [lia|]. split.
      * intros i Hi. destruct (Z.eq_dec i 0); [subst; cbn; auto|].
        replace (Z.to_nat i) with (S (Z.to_nat (i - 1))) by lia. apply I2. lia.
      * intros Hs. replace (Z.to_nat (1 + searchsorted gc x)) with (S (Z.to_nat (searchsorted gc x))) by lia.
        apply I3. lia.
    + split; [lia|]. split; [intros; lia|]. intros _. cbn. lra.
Qed.

(** Left of the first cell or above its left node; idem right. *)
Lemma cell_left g x : valid_dim g -> (0 < cellR g x)%Z -> gnode g (cellR g x) <= x.
Proof.
  intros H Hc. destruct g as [a b n|gc].
  - cbn -[Z.max Z.min] in *. pose proof (gsize_IZR _ H). pose proof (unif_step _ _ _ H). destruct H as [_ H]; cbn in *.
    set (u := (x - a) * ((IZR n - 1) / (b - a))) in *.
    assert (HF : (Z.max (Z.min (Zfloor u) (n - 2)) 0 <= Zfloor u)%Z) by lia.
    set (c := Z.max (Z.min (Zfloor u) (n - 2)) 0) in *.
    apply IZR_le in HF. pose proof (Zfloor_lb u).
    assert (HH : IZR c * ((b - a) / (IZR n - 1)) <= u * ((b - a) / (IZR n - 1))).
    { apply Rmult_le_compat_r; lra. }
    replace (u * ((b - a) / (IZR n - 1))) with (x - a) in HH. lra. unfold u. field; repeat split; lra.
  - destruct (searchsorted_spec gc x) as [S1 [S2 S3]]. cbn -[Z.max Z.min] in *. left. apply S2. lia.
Qed.
Lemma cell_right g x : valid_dim g -> (cellR g x < gsize g - 2)%Z -> x <= gnode g (cellR g x + 1).
Proof.
  intros H Hc. destruct g as [a b n|gc].
  - cbn -[Z.max Z.min] in *. pose proof (gsize_IZR _ H). pose proof (unif_step _ _ _ H). destruct H as [Hn H]; cbn in *.
    set (u := (x - a) * ((IZR n - 1) / (b - a))) in *.
    assert (HF : (Zfloor u <= Z.max (Z.min (Zfloor u) (n - 2)) 0)%Z) by lia.
    set (c := Z.max (Z.min (Zfloor u) (n - 2)) 0) in *.
    apply IZR_le in HF. pose proof (Zfloor_ub u). rewrite plus_IZR in *.
    assert (HH : u * ((b - a) / (IZR n - 1)) <= (IZR c + 1) * ((b - a) / (IZR n - 1))).
    { apply Rmult_le_compat_r; lra. }
    replace (u * ((b - a) / (IZR n - 1))) with (x - a) in HH. lra. unfold u. field. lra.
  - destruct (searchsorted_spec gc x) as [S1 [S2 S3]]. cbn -[Z.max Z.min] in *.
    assert (Hs : (searchsorted gc x < zlen gc)%Z) by lia. specialize (S3 Hs).
    destruct (Z.eq_dec (searchsorted gc x) 0) as [E|E].
    + rewrite E in *. replace (Z.min (Z.max (0 - 1) 0) (zlen gc - 2) + 1)%Z with 1%Z by lia.
      pose proof (gnode_step (Nonunif gc) 0 H ltac:(cbn; lia)) as HS. unfold gnode in HS. change (0 + 1)%Z with 1%Z in HS. lra.
    + replace (Z.min (Z.max (searchsorted gc x - 1) 0) (zlen gc - 2) + 1)%Z with (searchsorted gc x) by lia. lra.
Qed.

Lemma lam_ge0 g x : valid_dim g -> glo g <= x -> 0 <= lamR g x.
Proof.
  intros H Hx. pose proof (cell_gap g x H). pose proof (cellR_range g x H).
  assert (gnode g (cellR g x) <= x).
  { destruct (Z.eq_dec (cellR g x) 0) as [E|E]. rewrite E. exact Hx. apply cell_left; auto. lia. }
  unfold lamR. apply Rmult_le_pos; [lra|]. left. apply Rinv_0_lt_compat. lra.
Qed.
Lemma lam_le1 g x : valid_dim g -> x <= ghi g -> lamR g x <= 1.
Proof.
  intros H Hx. pose proof (cell_gap g x H). pose proof (cellR_range g x H).
  assert (x <= gnode g (cellR g x + 1)).
  { destruct (Z.eq_dec (cellR g x) (gsize g - 2)) as [E|E].
    - rewrite E. unfold ghi in Hx. replace (gsize g - 2 + 1)%Z with (gsize g - 1)%Z by lia. exact Hx.
    - apply cell_right; auto. lia. }
  unfold lamR. apply Rmult_le_reg_r with (1 := H0). unfold Rdiv. rewrite Rmult_assoc, Rinv_l by lra. lra.
Qed.
Lemma lam_lt0 g x : valid_dim g -> x < glo g -> lamR g x < 0 /\ cellR g x = 0%Z.
Proof.
  intros H Hx. pose proof (cell_gap g x H). pose proof (cellR_range g x H).
  assert (E : cellR g x = 0%Z).
  { destruct (Z.eq_dec (cellR g x) 0) as [E|E]; auto. exfalso.
    pose proof (cell_left g x H ltac:(lia)). pose proof (gnode_le g 0 (cellR g x) H ltac:(lia) ltac:(lia) ltac:(lia)).
    unfold glo in Hx. lra. }
  split; auto. unfold lamR. rewrite E in *. apply Rmult_lt_reg_r with (1 := H0).
  unfold Rdiv. rewrite Rmult_assoc, Rinv_l by lra. unfold glo in Hx. lra.
Qed.
Lemma lam_gt1 g x : valid_dim g -> ghi g < x -> 1 < lamR g x /\ cellR g x = (gsize g - 2)%Z.
Proof.
  intros H Hx. pose proof (cell_gap g x H). pose proof (cellR_range g x H).
  assert (E : cellR g x = (gsize g - 2)%Z).
  { destruct (Z.eq_dec (cellR g x) (gsize g - 2)) as [E|E]; auto. exfalso.
    pose proof (cell_right g x H ltac:(lia)).
    pose proof (gnode_le g (cellR g x + 1) (gsize g - 1) H ltac:(lia) ltac:(lia) ltac:(lia)).
    unfold ghi in Hx. lra. }
  split; auto. unfold lamR. rewrite E in *. apply Rmult_lt_reg_r with (1 := H0).
  unfold Rdiv. rewrite Rmult_assoc, Rinv_l by lra. unfold ghi in Hx.
  replace (gsize g - 1)%Z with (gsize g - 2 + 1)%Z in Hx by lia. lra.
Qed.

(** At a node. *)
Lemma cell_at_node g i : valid_dim g -> (0 <= i < gsize g)%Z ->
  (cellR g (gnode g i) = i /\ lamR g (gnode g i) = 0) \/
  (cellR g (gnode g i) = (i - 1)%Z /\ lamR g (gnode g i) = 1).
Proof.
  intros H Hi. set (x := gnode g i). pose proof (cell_gap g x H). pose proof (cellR_range g x H).
  assert (C : cellR g x = i \/ cellR g x = (i - 1)%Z).
  { destruct (Z_lt_le_dec (cellR g x) (i - 1)) as [L|L].
    - exfalso. pose proof (cell_right g x H ltac:(lia)).
      pose proof (gnode_lt g (cellR g x + 1) i H ltac:(lia) ltac:(lia) ltac:(lia)). fold x in H3. lra.
    - destruct (Z_lt_le_dec i (cellR g x)) as [L2|L2]; [|lia].
      exfalso. pose proof (cell_left g x H ltac:(lia)).
      pose proof (gnode_lt g i (cellR g x) H ltac:(lia) ltac:(lia) ltac:(lia)). fold x in H3. lra. }
  unfold lamR. destruct C as [E|E]; rewrite E in *; [left|right]; split; auto.
  - unfold x, Rdiv. replace (gnode g i - gnode g i) with 0 by ring. ring.
  - replace (i - 1 + 1)%Z with i in * by lia. fold x in H0 |- *. field. lra.
Qed.

(** ** Weights and cardinal functions *)
Definition wR (k l : Z) (lam del : R) : list R := match blend k l lam del with Ok ws => ws | Err _ => [] end.

Lemma blend_R k l lam del : (k = 1 \/ k = 3 /\ (l <= 1))%Z -> (0 <= l)%Z -> del <> 0 ->
  blend k l lam del = Ok (wR k l lam del).
Proof.
  intros Hk Hl Hd. unfold wR.
  assert (exists ws, blend k l lam del = Ok ws) as [ws ->]; auto.
  unfold blend. destruct Hk as [->|[-> Hk]]; cbn.
  - unfold blend_linear. destruct (l =? 0)%Z; eauto. destruct (l =? 1)%Z; eauto.
    rewrite !divE_R by auto. cbn. eauto.
  - unfold blend_cubic. destruct (Z.eqb_spec l 0); eauto. destruct (Z.eqb_spec l 1); eauto. lia.
Qed.

Definition phi (k l : Z) (g : gdim R) (x : R) (i : Z) : R :=
  if (cellR g x <=? i)%Z && (i <=? cellR g x + k)%Z
  then nth (Z.to_nat (i - cellR g x)) (wR k l (lamR g x) (delR g x)) 0
  else 0.

Definition dims (k : Z) (grid : list (gdim R)) (oo : list Z) (pt : list R) : list (Z * (Z -> R)) :=
  map2 (fun g lx => (csize k g, phi k (fst lx) g (snd lx))) grid (combine oo pt).

Definition VR (k : Z) (grid : list (gdim R)) (oo : list Z) (c : list Z -> R) (pt : list R) : R :=
  NS (dims k grid oo pt) c.

Lemma dims_cons k g grid l oo x pt :
  dims k (g :: grid) (l :: oo) (x :: pt) = (csize k g, phi k l g x) :: dims k grid oo pt.
Proof. reflexivity. Qed.

(** Window form of one dimension. *)
Lemma phi_window k l g x f : valid_dim g -> (0 <= k)%Z ->
  zsum (csize k g) (fun i => phi k l g x i * f i) =
  zsum (k + 1) (fun j => nth (Z.to_nat j) (wR k l (lamR g x) (delR g x)) 0 * f (cellR g x + j)%Z).
Proof.
  intros H Hk. pose proof (cellR_range g x H).
  rewrite (zsum_window _ _ (cellR g x) (k + 1)); unfold csize; try lia.
  - apply zsum_ext. intros j Hj. unfold phi.
    replace ((cellR g x <=? cellR g x + j)%Z && (cellR g x + j <=? cellR g x + k)%Z) with true by lia.
    replace (cellR g x + j - cellR g x)%Z with j by lia. reflexivity.
  - intros i Hi Ho. unfold phi.
    replace ((cellR g x <=? i)%Z && (i <=? cellR g x + k)%Z) with false by lia. ring.
Qed.

Lemma fold_left_Rplus l : forall a, fold_left Rplus l a = a + fold_right Rplus 0 l.
Proof. induction l; cbn; intros; [ring|rewrite IHl; ring]. Qed.

Lemma add_left_R (l : list R) : add_left l = fold_right Rplus 0 l.
Proof. destruct l; cbn; auto. apply fold_left_Rplus. Qed.

Lemma enum_sum (h : list R) G : forall i0,
  fold_right Rplus 0 (map (fun ih => snd ih * G (fst ih)) (enum_from i0 h)) =
  zsum (zlen h) (fun j => nth (Z.to_nat j) h 0 * G (i0 + j)%Z).
Proof.
  induction h as [|a h IH]; intros i0; cbn [enum_from map fold_right].
  - now rewrite zsum_0.
  - rewrite IH. cbn [fst snd]. rewrite zlen_cons. pose proof (zlen_nonneg h).
    rewrite (zsum_first (zlen h + 1)) by lia. rewrite Z.add_0_r. f_equal.
    replace (zlen h + 1 - 1)%Z with (zlen h) by lia.
    apply zsum_ext. intros j Hj. replace (Z.to_nat (j + 1)) with (S (Z.to_nat j)) by lia.
    cbn [nth]. do 2 f_equal. lia.
Qed.

Lemma map2_app {A B C} (f : A -> B -> C) l1 l2 m1 m2 : length l1 = length m1 ->
  map2 f (l1 ++ l2) (m1 ++ m2) = map2 f l1 m1 ++ map2 f l2 m2.
Proof.
  revert m1; induction l1; destruct m1; cbn; intros H; auto; try discriminate. f_equal. auto.
Qed.

Lemma tsum_NS k grid oo pt (F : list Z -> R) :
  valid_grid grid -> (0 <= k)%Z -> length oo = length grid -> length pt = length grid ->
  (forall g l x, In g grid -> In l oo -> zlen (wR k l (lamR g x) (delR g x)) = (k + 1)%Z) ->
  forall cs0 pre, length cs0 = length pre ->
  tsum (map2 (fun g lx => wR k (fst lx) (lamR g (snd lx)) (delR g (snd lx))) grid (combine oo pt))
       (fun inds => F (map2 Z.add (cs0 ++ map2 cellR grid pt) inds)) pre
  = VR k grid oo (fun idx => F (map2 Z.add cs0 pre ++ idx)) pt.
Proof.
  intros Hv Hk. revert oo pt. induction Hv as [|g grid Hg Hv IH]; intros oo pt Lo Lp HL cs0 pre Hpre.
  - destruct oo, pt; try discriminate. cbn. rewrite !app_nil_r. reflexivity.
  - destruct oo as [|l oo]; [discriminate|]. destruct pt as [|x pt]; [discriminate|].
    unfold VR. rewrite dims_cons. cbn [combine map2 tsum NS fst snd].
    rewrite add_left_R.
    rewrite (enum_sum _ (fun i => tsum _ _ (pre ++ [i]))). rewrite HL by (cbn; auto).
    rewrite (phi_window k l g x) by auto.
    apply zsum_ext. intros j Hj. f_equal. rewrite Z.add_0_l.
    specialize (IH oo pt ltac:(cbn in *; lia) ltac:(cbn in *; lia)).
    specialize (IH ltac:(intros; apply HL; cbn; auto) (cs0 ++ [cellR g x]) (pre ++ [j])).
    rewrite <- app_assoc in IH. cbn [app] in IH.
    rewrite IH by (rewrite !app_length; cbn; lia).
    unfold VR. apply NS_ext. intros idx _. f_equal. rewrite map2_app by auto. cbn [map2].
    rewrite <- app_assoc. reflexivity.
Qed.

(** ** The extrapolation modes *)
Definition projR (g : gdim R) (x : R) : R := Rmax (glo g) (Rmin x (ghi g)).
Definition proj_grid (grid : list (gdim R)) (pt : list R) : list R := map2 projR grid pt.
Definition insideb (grid : list (gdim R)) (pt : list R) : bool :=
  forallb (fun gx => Rle_bool (glo (fst gx)) (snd gx) && Rle_bool (snd gx) (ghi (fst gx))) (combine grid pt).

Lemma insideb_spec grid : forall pt, length pt = length grid -> insideb grid pt = true <-> in_domain grid pt.
Proof.
  unfold insideb, in_domain. induction grid as [|g grid IH]; intros [|x pt] HL; try discriminate; cbn.
  - split; auto.
  - rewrite !andb_true_iff, IH by (cbn in HL; lia).
    destruct (Rle_bool_spec (glo g) x), (Rle_bool_spec x (ghi g));
      (split; [intros [[? ?] ?]; try discriminate; constructor; auto; split; auto|]);
      intros HF; inversion HF as [|? ? ? ? [? ?] ?]; subst; auto; lra.
Qed.

Lemma bounds_R g : valid_dim g -> bounds (gpR g) = Ok (glo g, ghi g).
Proof.
  intros H. destruct g; cbn [gpR bounds]; auto. rewrite glo_unif, (ghi_unif _ _ _ H). reflexivity.
Qed.

Definition xpoint (xm : extrap) (grid : list (gdim R)) (pt : list R) : option (list R) :=
  match xm with
  | XLinear => Some pt
  | XNearest => Some (proj_grid grid pt)
  | XConstant => if insideb grid pt then Some pt else None
  end.

Lemma extractN_R xm grid : valid_grid grid -> forall pt, length pt = length grid ->
  extractN xm (map gpR grid) pt = Ok (xpoint xm grid pt).
Proof.
  intros Hv. induction Hv as [|g grid Hg Hv IH]; intros [|x pt] HL; try discriminate.
  - destruct xm; reflexivity.
  - cbn [map extractN]. destruct xm.
    + rewrite bounds_R by auto. cbn [bind]. rewrite IH by (cbn in HL; lia). unfold outside, xpoint, insideb.
      cbn -[Rle_bool]. cbn [fst snd]. destruct (Rlt_bool_spec x (glo g)), (Rlt_bool_spec (ghi g) x); cbn [orb].
      1-3: destruct (Rle_bool_spec (glo g) x), (Rle_bool_spec x (ghi g)); try lra; reflexivity.
      rewrite !Rle_bool_true by auto. cbn [andb].
      destruct (forallb _ _); reflexivity.
    + rewrite IH by (cbn in HL; lia). reflexivity.
    + rewrite bounds_R by auto. cbn [bind]. rewrite IH by (cbn in HL; lia). cbn.
      rewrite pymax_R, pymin_R. reflexivity.
Qed.

Definition brsR (grid : list (gdim R)) (pt : list R) : list (Z * R * R) :=
  map2 (fun g x => (cellR g x, lamR g x, delR g x)) grid pt.

Lemma mapM2_bracket_R grid : valid_grid grid -> forall pt, length pt = length grid ->
  mapM2 bracket (map gpR grid) pt = Ok (brsR grid pt).
Proof.
  intros Hv. induction Hv as [|g grid Hg Hv IH]; intros [|x pt] HL; try discriminate; cbn [map mapM2 brsR map2]; auto.
  rewrite bracket_R by auto. cbn [bind]. rewrite IH by (cbn in HL; lia). reflexivity.
Qed.

Lemma proj_grid_length grid pt : length pt = length grid -> length (proj_grid grid pt) = length grid.
Proof. intros. unfold proj_grid. rewrite map2_length; lia. Qed.

Lemma xpoint_length xm grid pt q : length pt = length grid -> xpoint xm grid pt = Some q -> length q = length grid.
Proof.
  intros HL. destruct xm; cbn.
  - destruct (insideb grid pt); intros H; inversion H; subst; auto.
  - intros H; inversion H; subst; auto.
  - intros H; inversion H; subst. now apply proj_grid_length.
Qed.

Definition prR xm grid pt := match xpoint xm grid pt with Some q => Some (brsR grid q) | None => None end.

Lemma prep_R xm grid pt : valid_grid grid -> length pt = length grid ->
  prep xm (map gpR grid) pt = Ok (prR xm grid pt).
Proof.
  intros Hv HL. unfold prep, prR. rewrite extractN_R by auto. cbn [bind].
  destruct (xpoint xm grid pt) as [q|] eqn:E; auto.
  rewrite mapM2_bracket_R; auto. eapply xpoint_length; eauto.
Qed.

Lemma mapM_recoverN_R grid : valid_grid grid -> mapM recoverN grid = Ok (map gpR grid).
Proof. intros Hv. apply mapM_all_ok. intros g Hg. apply recoverN_R. unfold valid_grid in Hv. rewrite Forall_forall in Hv. auto. Qed.

Lemma valid_sizes grid : valid_grid grid -> grid_sizes_ok grid.
Proof. apply Forall_impl. intros g [H _]; auto. Qed.

Lemma compile_check_R k grid orders : kgrid_ok k grid -> diff_ok k grid orders ->
  compile_check k grid orders = Ok tt.
Proof.
  intros Hk [Ho Hd]. unfold compile_check.
  assert (E : existsb is_nonunif grid && (1 <? k)%Z = false).
  { destruct Hk as [->|[-> Hu]]; [apply andb_false_r|]. now rewrite (all_uniform_existsb grid Hu). }
  rewrite E. replace (negb ((k =? 1)%Z || (k =? 3)%Z)) with false by (destruct Hk as [->|[-> _]]; reflexivity).
  destruct orders as [os|]; auto. destruct Ho as [Ho1 Ho2]. destruct os as [|o os]; [congruence|].
  rewrite Forall_forall in Ho2, Hd.
  replace (negb _) with false.
  2:{ symmetry. apply negb_false_iff. apply forallb_forall. intros x Hx. apply Z.eqb_eq. auto. }
  replace ((k =? 3)%Z && _) with false; auto.
  symmetry. apply not_true_iff_false. rewrite andb_true_iff, existsb_exists.
  intros [E3 [o' [Ho' E']]]. rewrite existsb_exists in E'. destruct E' as [l [Hl E']].
  specialize (Hd o' Ho'). rewrite Forall_forall in Hd. destruct (Hd l Hl) as [_ Hd2].
  apply Z.eqb_eq in E3. specialize (Hd2 E3). lia.
Qed.

(** Multi-index and component designated by an entry of the result. *)
Definition diff_of (grid : list (gdim R)) orders suf := sel_oo (zlen grid) orders suf.
Definition comp_of (comps : list Z) (suf : list Z) : list Z :=
  sel_ix (match comps with [] => false | _ => true end) suf.

Definition multi_ok (k : Z) (grid : list (gdim R)) (oo : list Z) : Prop :=
  length oo = length grid /\ Forall (fun l => 0 <= l /\ (k = 3 -> l <= 1))%Z oo.

Lemma diff_of_ok k grid comps orders suf : diff_ok k grid orders ->
  inb (result_shape comps orders) suf = true -> (comps = [] \/ exists nx, comps = [nx]) ->
  multi_ok k grid (diff_of grid orders suf).
Proof.
  intros [Ho Hd] Hs Hc. unfold diff_of, sel_oo. destruct orders as [os|].
  - destruct Ho as [_ Ho]. rewrite Forall_forall in Ho, Hd.
    assert (Hj : (0 <= last suf 0 < zlen os)%Z).
    { destruct Hc as [->|[nx ->]]; unfold result_shape in Hs; cbn [app] in Hs.
      - destruct suf as [|j [|]]; cbn in Hs; try lia. cbn. lia.
      - destruct suf as [|i [|j [|]]]; cbn in Hs; try lia. cbn. lia. }
    assert (Hin : In (nth (Z.to_nat (last suf 0%Z)) os []) os).
    { apply nth_In. unfold zlen in Hj. lia. }
    split; [|apply Hd; auto]. specialize (Ho _ Hin). unfold zlen in Ho. lia.
  - split.
    + rewrite map_length, zrange_length. unfold zlen. lia.
    + apply Forall_forall. intros l Hl. apply in_map_iff in Hl as [i [<- _]]. split; lia.
Qed.

Lemma comp_of_inb comps orders suf : inb (result_shape comps orders) suf = true ->
  (comps = [] \/ exists nx, comps = [nx]) -> inb comps (comp_of comps suf) = true.
Proof.
  intros Hs [->|[nx ->]]; cbn; auto. destruct suf as [|i suf]; [discriminate|]. cbn in *. lia.
Qed.

Lemma get_value_R k grid oo C comps ix pt :
  valid_grid grid -> kgrid_ok k grid -> coefs_ok k grid comps C -> inb comps ix = true ->
  multi_ok k grid oo -> length pt = length grid ->
  get_value k (brsR grid pt) oo C ix = Ok (VR k grid oo (fun idx => acell C (idx ++ ix)) pt).
Proof.
  intros Hv Hk [HC _] Hix [Lo Hoo] Lp.
  assert (Hk0 : (0 <= k)%Z) by (destruct Hk as [->|[-> _]]; lia).
  assert (W : forall g l x, In g grid -> In l oo -> blend k l (lamR g x) (delR g x) = Ok (wR k l (lamR g x) (delR g x))).
  { intros g l x Hg Hl. unfold valid_grid in Hv. rewrite Forall_forall in Hv, Hoo. destruct (Hoo l Hl). apply blend_R; auto.
    - destruct Hk as [->|[-> _]]; auto.
    - pose proof (delR_pos g x (Hv g Hg)). lra. }
  assert (EM : mapM2 (fun (br : Z * R * R) l => let '(_, lam, del) := br in blend k l lam del) (brsR grid pt) oo
    = Ok (map2 (fun g lx => wR k (fst lx) (lamR g (snd lx)) (delR g (snd lx))) grid (combine oo pt))).
  { clear -Lo Lp W. revert oo pt Lo Lp W. induction grid as [|g grid IH]; intros [|l oo] [|x pt] Lo Lp W; try discriminate; auto.
    cbn [brsR map2 mapM2 combine fst snd]. rewrite W by (cbn; auto). cbn [bind].
    fold (brsR grid pt). rewrite (IH oo pt); auto. intros; apply W; cbn; auto. }
  assert (HB : Forall2 (br_fits k) grid (brsR grid pt)).
  { clear -Hv Lp. revert pt Lp. induction Hv as [|g grid Hg Hv IH]; intros [|x pt] Lp; try discriminate; constructor.
    - pose proof (cellR_range g x Hg). unfold br_fits, csize. cbn. lia.
    - apply IH. cbn in Lp; lia. }
  rewrite (get_value_ok k grid (brsR grid pt) oo C ix comps _ HB HC Hix EM).
  assert (EC : map (fun br : Z * R * R => fst (fst br)) (brsR grid pt) = map2 cellR grid pt).
  { clear. revert pt. induction grid; intros [|]; cbn; auto. f_equal. auto. }
  rewrite EC. f_equal.
  refine (tsum_NS k grid oo pt (fun idx => acell C (idx ++ ix)) Hv Hk0 Lo Lp _ [] [] eq_refl).
  intros g l x Hg Hl. eapply blend_len. apply W; auto.
Qed.

(** ** Main description of the result over the reals *)
Definition outcome (k : Z) (orders : option (list (list Z))) (xm : extrap) (grid : list (gdim R)) (comps : list Z)
  (C : arr R) (pt : list R) (suf : list Z) : R :=
  match xpoint xm grid pt with
  | Some q => VR k grid (diff_of grid orders suf) (fun idx => acell C (idx ++ comp_of comps suf)) q
  | None => 0
  end.

Theorem value_at_outcome k orders xm grid comps C pt suf :
  valid_grid grid -> kgrid_ok k grid -> coefs_ok k grid comps C -> diff_ok k grid orders ->
  zlen pt = zlen grid -> inb (result_shape comps orders) suf = true ->
  value_at k orders xm grid comps C pt suf (outcome k orders xm grid comps C pt suf).
Proof.
  intros Hv Hk HC Hd Lp Hs.
  assert (HL : forall p : list R, zlen p = zlen grid -> length p = length grid) by (unfold zlen; lia).
  assert (Hcomps : comps = [] \/ exists nx, comps = [nx]).
  { destruct HC as [_ [->|[nx [-> _]]]]; eauto. }
  apply (value_at_intro k orders xm grid comps C pt suf _ (map gpR grid)
    (fun pr suf => match pr with Some brs => match get_value k brs (diff_of grid orders suf) C (comp_of comps suf) with Ok v => v | Err _ => 0 end | None => 0 end)
    (prR xm grid)); auto.
  - now apply compile_check_R.
  - now apply mapM_recoverN_R.
  - intros p Hp. apply prep_R; auto.
  - intros p suf' Hp Hs'. unfold prR. destruct (xpoint xm grid p) as [q|] eqn:E; cbn [valp]; auto.
    change (sel_oo _ _ _) with (diff_of grid orders suf'). change (sel_ix _ _) with (comp_of comps suf').
    erewrite get_value_R; eauto.
    + eapply comp_of_inb; eauto.
    + eapply diff_of_ok; eauto.
    + eapply xpoint_length; eauto.
  - unfold outcome, prR. destruct (xpoint xm grid pt) as [q|] eqn:E; auto.
    erewrite get_value_R; eauto.
    + eapply comp_of_inb; eauto.
    + eapply diff_of_ok; eauto.
    + eapply xpoint_length; eauto.
Qed.

(** Converse: any observed value is the outcome. *)
Corollary value_at_iff k orders xm grid comps C pt suf v :
  valid_grid grid -> kgrid_ok k grid -> coefs_ok k grid comps C -> diff_ok k grid orders ->
  zlen pt = zlen grid -> inb (result_shape comps orders) suf = true ->
  value_at k orders xm grid comps C pt suf v <-> v = outcome k orders xm grid comps C pt suf.
Proof.
  intros Hv Hk HC Hd Lp Hs. split.
  - intros H. eapply value_at_fun; eauto. now apply value_at_outcome.
  - intros ->. now apply value_at_outcome.
Qed.
