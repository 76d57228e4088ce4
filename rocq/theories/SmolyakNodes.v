(** C40, C41: the one-dimensional node sets and the grid points, over the reals. *)
From Coq Require Import ZArith List Bool Lia ZifyBool Permutation Reals Lra Psatz.
From Flocq Require Import Core.Raux.
From Verif Require Import Base BaseFacts CompleteGeneric SmolyakModel SpecSmolyak SmolyakPermute SmolyakInds SmolyakChains.
Import ListNotations.
Open Scope Z_scope.

(** ** The threshold *)
Lemma sin_lower y : (0 <= y <= 1)%R -> (5 / 6 * y <= sin y)%R.
Proof.
  intros H. assert (HP : (3 / 2 < PI / 2)%R) by apply PI2_3_2.
  destruct (SIN y ltac:(lra) ltac:(lra)) as [L _]. eapply Rle_trans; [|exact L]. unfold sin_lb, sin_approx, sin_term. cbn [sum_f_R0].
  replace (INR (fact (2 * 0 + 1))) with 1%R by (rewrite INR_IZR_INZ; reflexivity). replace (INR (fact (2 * 1 + 1))) with 6%R by (rewrite INR_IZR_INZ; reflexivity).
  replace (INR (fact (2 * 2 + 1))) with 120%R by (rewrite INR_IZR_INZ; reflexivity). replace (INR (fact (2 * 3 + 1))) with 5040%R by (rewrite INR_IZR_INZ; reflexivity). 
  cbn [Nat.mul Nat.add pow]. assert (G : forall u z, (0 <= u <= 1 -> 0 <= z -> 0 <= u * z <= z)%R) by (intros u z Hu Hz; split; nra).
  assert (Ha : (0 <= y * y <= 1)%R) by (destruct (G y y H ltac:(lra)); lra). set (a := (y * y)%R) in *.
  destruct (G a y Ha ltac:(lra)) as [G1 G2]. destruct (G a (a * y)%R Ha G1) as [G3 G4]. destruct (G a (a * (a * y))%R Ha G3) as [G5 G6].
  replace (y * (y * (y * (y * (y * (y * (y * 1)))))))%R with (a * (a * (a * y)))%R by (unfold a; ring).
  replace (y * (y * (y * (y * (y * 1)))))%R with (a * (a * y))%R by (unfold a; ring). replace (y * (y * (y * 1)))%R with (a * y)%R by (unfold a; ring). lra.
Qed.
Lemma cos_small M j : 1 <= M -> 0 <= j <= 2 * M -> (Rabs (cos (PI * IZR j / IZR (2 * M))) < / IZR M)%R -> j = M.
Proof.
  intros HM Hj H. destruct (Z.eq_dec j M) as [|Hne]; auto. exfalso.
  assert (HMR : (1 <= IZR M)%R) by (now apply IZR_le). assert (HP : (3 < PI <= 4)%R) by (split; [pose proof PI2_3_2; lra|apply PI_4]).
  set (k := Z.abs (M - j)). assert (Hk : (1 <= IZR k <= IZR M)%R) by (split; apply IZR_le; lia).
  assert (E : Rabs (cos (PI * IZR j / IZR (2 * M))) = sin (PI * IZR k / (2 * IZR M))).
  { rewrite mult_IZR. assert (Hy : (0 <= PI * IZR k / (2 * IZR M) <= PI / 2)%R).
    { split; [apply Rmult_le_pos; [nra|left; apply Rinv_0_lt_compat; lra]|]. apply (Rmult_le_reg_r (2 * IZR M)); [lra|]. replace (PI * IZR k / (2 * IZR M) * (2 * IZR M))%R with (PI * IZR k)%R by (field; lra). nra. }
    assert (Hs : (0 <= sin (PI * IZR k / (2 * IZR M)))%R) by (apply sin_ge_0; lra).
    assert (Hz : IZR k = (IZR M - IZR j)%R \/ IZR k = (IZR j - IZR M)%R) by (rewrite <- !minus_IZR; unfold k; destruct (Z.abs_eq_or_opp (M - j)) as [-> | ->]; [left|right]; f_equal; lia).
    destruct Hz as [Hz|Hz]; rewrite Hz in *.
    - replace (PI * IZR j / (2 * IZR M))%R with (PI / 2 - PI * (IZR M - IZR j) / (2 * IZR M))%R by (field; lra). rewrite cos_shift. now apply Rabs_pos_eq.
    - replace (PI * IZR j / (2 * IZR M))%R with (PI * (IZR j - IZR M) / (2 * IZR M) + PI / 2)%R by (field; lra).
      rewrite cos_plus, cos_PI2, sin_PI2. replace (_ * 0 - _ * 1)%R with (- sin (PI * (IZR j - IZR M) / (2 * IZR M)))%R by ring. rewrite Rabs_Ropp. now apply Rabs_pos_eq. }
  rewrite E in H. clear E. 
  assert (HyM : (0 < / IZR M)%R) by (apply Rinv_0_lt_compat; lra).
  assert (Hle : (sin (PI / (2 * IZR M)) <= sin (PI * IZR k / (2 * IZR M)))%R).
  { assert (Hi : (0 < / (2 * IZR M))%R) by (apply Rinv_0_lt_compat; lra).
    apply sin_incr_1; unfold Rdiv.
    - assert (0 <= PI * / (2 * IZR M))%R by (apply Rmult_le_pos; lra). lra.
    - assert (PI * / (2 * IZR M) <= PI * / 2)%R; [|lra]. apply Rmult_le_compat_l; [lra|]. apply Rinv_le_contravar; lra.
    - assert (0 <= PI * IZR k * / (2 * IZR M))%R by (apply Rmult_le_pos; [nra|lra]). lra.
    - apply (Rmult_le_reg_r (2 * IZR M)); [lra|]. rewrite Rmult_assoc, Rinv_l by lra. nra.
    - apply Rmult_le_compat_r; [lra|]. nra. }
  destruct (Z.eq_dec M 1) as [->|HM1].
  - replace (PI / (2 * 1))%R with (PI / 2)%R in Hle by field. rewrite sin_PI2 in Hle. replace (/ 1)%R with 1%R in H by field. lra.
  - assert (HM2 : (2 <= IZR M)%R) by (apply IZR_le; lia).
    assert (Hs := sin_lower (PI / (2 * IZR M))). 
    assert (Hb : (0 <= PI / (2 * IZR M) <= 1)%R).
    { split; [apply Rmult_le_pos; [lra|left; apply Rinv_0_lt_compat; lra]|]. apply (Rmult_le_reg_r (2 * IZR M)); [lra|]. replace (PI / (2 * IZR M) * (2 * IZR M))%R with PI by (field; lra). lra. }
    specialize (Hs Hb). replace (PI / (2 * IZR M))%R with (PI / 2 * / IZR M)%R in Hs at 1 by (field; lra). nra.
Qed.

Lemma snode_extremum tiny n j : 2 <= n -> tiny_ok tiny n -> 0 <= j <= 2 ^ (n - 1) -> @snode R NumR PI cos tiny n j = extremum n j.
Proof.
  intros Hn [Ht1 Ht2] Hj. pose proof (pow2_pos (n - 2) ltac:(lia)) as HM. assert (Hp : 2 ^ (n - 1) = 2 * 2 ^ (n - 2)) by (rewrite <- pow2_S by lia; f_equal; lia).
  unfold snode. cbn [n_ofZ n_mul n_sub n_div n_ltb NumR]. unfold nabs. cbn [n_ofZ n_sub n_ltb NumR].
  replace (PI * (IZR (1 + j) - 1) / (IZR (2 ^ (n - 1) + 1) - 1))%R with (PI * IZR j / IZR (2 ^ (n - 1)))%R by (rewrite !plus_IZR; f_equal; [f_equal; ring|ring]).
  set (c := cos _). assert (Hv : (-1 * c)%R = extremum n j) by (unfold extremum, c; lra). rewrite Hv.
  destruct (Rlt_bool_spec (if Rlt_bool (extremum n j) 0 then 0 - extremum n j else extremum n j) tiny) as [E|]; auto. symmetry.
  assert (Ha : (Rabs c < tiny)%R).
  { revert E. unfold extremum. fold c. destruct (Rlt_bool_spec (- c) 0); intros L; unfold Rabs; destruct (Rcase_abs c); lra. }
  assert (Hj2 : j = 2 ^ (n - 2)).
  { apply cos_small; [lia|lia|]. rewrite <- Hp. fold c. lra. }
  unfold extremum. subst j. rewrite Hp, mult_IZR. assert (0 < IZR (2 ^ (n - 2)))%R by (now apply IZR_lt).
  replace (PI * IZR (2 ^ (n - 2)) / (2 * IZR (2 ^ (n - 2))))%R with (PI / 2)%R by (field; lra). rewrite cos_PI2. lra.
Qed.

(** ** Node sets as sets of integers *)
Definition J (n i : Z) : list Z :=
  if i =? 1 then [2 ^ (n - 2)] else if i =? 2 then [0; 2 ^ (n - 1)]
  else map (fun t => 2 ^ (n - i) * (2 * t + 1)) (zrange (2 ^ (i - 2))).
Lemma pow2_split n i : 1 <= i <= n -> 2 ^ (n - 1) = 2 ^ (n - i) * 2 ^ (i - 1).
Proof. intros. rewrite <- Z.pow_add_r by lia. f_equal. lia. Qed.
Lemma J_range n i j : 2 <= n -> 1 <= i <= n -> In j (J n i) -> 0 <= j <= 2 ^ (n - 1).
Proof.
  intros Hn Hi. pose proof (pow2_pos (n - 1) ltac:(lia)). unfold J. destruct (i =? 1) eqn:E1; [|destruct (i =? 2) eqn:E2].
  - intros [<-|[]]. pose proof (pow2_split n 2 ltac:(lia)). pose proof (pow2_pos (n - 2) ltac:(lia)). change (2 ^ (2 - 1)) with 2 in *. lia.
  - intros [<-|[<-|[]]]; lia.
  - intros Hj. apply in_map_iff in Hj as (t & <- & Ht). apply zrange_In in Ht. rewrite (pow2_split n i) by lia. pose proof (pow2_pos (n - i) ltac:(lia)).
    assert (2 ^ (i - 1) = 2 * 2 ^ (i - 2)) by (rewrite <- pow2_S by lia; f_equal; lia). nia.
Qed.
Lemma J_NoDup n i : 2 <= n -> 1 <= i <= n -> NoDup (J n i).
Proof.
  intros Hn Hi. unfold J. destruct (i =? 1) eqn:E1; [|destruct (i =? 2) eqn:E2].
  - repeat constructor. intros [].
  - pose proof (pow2_pos (n - 1) ltac:(lia)). repeat constructor; intros []; auto; lia.
  - pose proof (pow2_pos (n - i) ltac:(lia)). apply FinFun.Injective_map_NoDup; [|apply zrange_NoDup]. intros a b E. apply Z.mul_reg_l in E; lia.
Qed.
(** The first i sets make up the multiples of 2^(n-i). *)
Lemma J_union n : 2 <= n -> forall i, 2 <= i <= n -> forall j,
  (exists k, 1 <= k <= i /\ In j (J n k)) <-> (exists q, 0 <= q <= 2 ^ (i - 1) /\ j = 2 ^ (n - i) * q).
Proof.
  intros Hn i Hi. assert (Hi2 : 2 <= i) by lia. revert Hi. pattern i. apply (Zlt_lower_bound_ind _ 2); auto. clear i Hi2. intros i IH Hi2 Hi j.
  destruct (Z.eq_dec i 2) as [->|Hne].
  - pose proof (pow2_split n 2 ltac:(lia)) as Hs. change (2 ^ (2 - 1)) with 2 in *. split.
    + intros (k & Hk & Hj). assert (k = 1 \/ k = 2) as [->| ->] by lia; unfold J in Hj; cbn [Z.eqb Pos.eqb In] in Hj.
      * exists 1. lia.
      * destruct Hj as [<-|[<-|[]]]; [exists 0|exists 2]; lia.
    + intros (q & Hq & ->). assert (q = 0 \/ q = 1 \/ q = 2) as [->|[->| ->]] by lia.
      * exists 2. split; [lia|]. unfold J. cbn. left. lia.
      * exists 1. split; [lia|]. unfold J. cbn. left. lia.
      * exists 2. split; [lia|]. unfold J. cbn [Z.eqb Pos.eqb In]. right. left. lia.
  - specialize (IH (i - 1) ltac:(lia) ltac:(lia)).
    assert (P1 : 2 ^ (n - (i - 1)) = 2 * 2 ^ (n - i)) by (rewrite <- pow2_S by lia; f_equal; lia).
    assert (P2 : 2 ^ (i - 1) = 2 * 2 ^ (i - 2)) by (rewrite <- pow2_S by lia; f_equal; lia). replace (i - 1 - 1) with (i - 2) in IH by lia.
    assert (EJ : forall x, In x (J n i) <-> exists t, 0 <= t < 2 ^ (i - 2) /\ x = 2 ^ (n - i) * (2 * t + 1)).
    { intros x. unfold J. destruct (i =? 1) eqn:E1; [lia|]. destruct (i =? 2) eqn:E2; [lia|]. rewrite in_map_iff. split; intros (t & A & B); exists t; [rewrite zrange_In in B|rewrite zrange_In]; auto. }
    split.
    + intros (k & Hk & Hj). destruct (Z.eq_dec k i) as [->|].
      * apply EJ in Hj as (t & Ht & ->). exists (2 * t + 1). lia.
      * destruct (proj1 (IH j)) as (q & Hq & ->); [exists k; split; auto; lia|]. exists (2 * q). rewrite P1. split; [lia|ring].
    + intros (q & Hq & ->). destruct (Z.Even_or_Odd q) as [[t ->]|[t ->]].
      * destruct (proj2 (IH (2 ^ (n - i) * (2 * t)))) as (k & Hk & Hj); [exists t; rewrite P1; split; [lia|ring]|]. exists k. split; auto. lia.
      * exists i. split; [lia|]. apply EJ. exists t. split; auto. lia.
Qed.
Lemma J_disjoint n a b j : 2 <= n -> 1 <= a <= n -> 1 <= b <= n -> In j (J n a) -> In j (J n b) -> a = b.
Proof.
  intros Hn. assert (H : forall a b, 1 <= a -> a < b <= n -> In j (J n a) -> In j (J n b) -> False).
  { clear a b. intros a b Ha Hb Hja Hjb. destruct (Z.eq_dec b 2) as [->|].
    - assert (a = 1) as -> by lia. unfold J in *. cbn [Z.eqb Pos.eqb In] in *. pose proof (pow2_split n 2 ltac:(lia)). change (2 ^ (2 - 1)) with 2 in *. pose proof (pow2_pos (n - 2) ltac:(lia)). lia.
    - destruct (proj1 (J_union n Hn (b - 1) ltac:(lia) j)) as (q & _ & Hq); [exists a; split; auto; lia|].
      assert (P1 : 2 ^ (n - (b - 1)) = 2 * 2 ^ (n - b)) by (rewrite <- pow2_S by lia; f_equal; lia).
      unfold J in Hjb. destruct (b =? 1) eqn:E1; [lia|]. destruct (b =? 2) eqn:E2; [lia|]. apply in_map_iff in Hjb as (t & Ht & _).
      pose proof (pow2_pos (n - b) ltac:(lia)). rewrite P1 in Hq. assert (2 * t + 1 = 2 * q) by nia. lia. }
  intros Ha Hb Hja Hjb. destruct (Z.lt_trichotomy a b) as [L|[L|L]]; auto; exfalso; [apply (H a b)|apply (H b a)]; auto; lia.
Qed.

(** ** Extrema *)
Lemma extremum_angle n j : 1 <= n -> 0 <= j <= 2 ^ (n - 1) -> (0 <= PI * IZR j / IZR (2 ^ (n - 1)) <= PI)%R.
Proof.
  intros Hn Hj. pose proof (pow2_pos (n - 1) ltac:(lia)) as HM. apply IZR_lt in HM. pose proof PI_RGT_0.
  assert (0 <= IZR j <= IZR (2 ^ (n - 1)))%R by (split; apply IZR_le; lia). split.
  - apply Rmult_le_pos; [nra|left; now apply Rinv_0_lt_compat].
  - apply (Rmult_le_reg_r (IZR (2 ^ (n - 1)))); auto. unfold Rdiv. rewrite Rmult_assoc, Rinv_l by lra. nra.
Qed.
Lemma extremum_inj n j k : 1 <= n -> 0 <= j <= 2 ^ (n - 1) -> 0 <= k <= 2 ^ (n - 1) -> extremum n j = extremum n k -> j = k.
Proof.
  intros Hn Hj Hk E. pose proof (pow2_pos (n - 1) ltac:(lia)) as HM. apply IZR_lt in HM. pose proof PI_RGT_0.
  destruct (extremum_angle n j Hn Hj) as [A1 A2], (extremum_angle n k Hn Hk) as [B1 B2]. unfold extremum in E.
  assert (Ea : (PI * IZR j / IZR (2 ^ (n - 1)))%R = (PI * IZR k / IZR (2 ^ (n - 1)))%R).
  { apply Rle_antisym; apply cos_decr_0; auto; lra. }
  apply eq_IZR. apply (Rmult_eq_reg_l (PI / IZR (2 ^ (n - 1)))); [unfold Rdiv in *; lra|]. apply Rgt_not_eq. apply Rdiv_lt_0_compat; lra.
Qed.
Lemma extremum_scale n i q : 2 <= i <= n -> extremum i q = extremum n (2 ^ (n - i) * q).
Proof.
  intros H. unfold extremum. do 2 f_equal. rewrite (pow2_split n i), !mult_IZR by lia.
  pose proof (pow2_pos (n - i) ltac:(lia)) as P1. pose proof (pow2_pos (i - 1) ltac:(lia)) as P2. apply IZR_lt in P1, P2. field. lra.
Qed.
Lemma extremum_bounds n j : (-1 <= extremum n j <= 1)%R.
Proof. unfold extremum. pose proof (COS_bound (PI * IZR j / IZR (2 ^ (n - 1)))). lra. Qed.

Section Nodes.
Variables (tiny : R).
Notation A := (@a_of R NumR PI cos tiny).
Lemma a_of_J n i : 2 <= n -> tiny_ok tiny n -> 1 <= i <= n -> A n i = map (extremum n) (J n i).
Proof.
  intros Hn Ht Hi. unfold a_of, J. cbn [n_ofZ NumR]. pose proof (pow2_pos (n - 1) ltac:(lia)) as HM. destruct (i =? 1) eqn:E1; [|destruct (i =? 2) eqn:E2].
  - cbn. f_equal. unfold extremum. pose proof (pow2_split n 2 ltac:(lia)) as Hs. change (2 ^ (2 - 1)) with 2 in Hs. rewrite Hs, mult_IZR. pose proof (pow2_pos (n - 2) ltac:(lia)) as P. apply IZR_lt in P.
    replace (PI * IZR (2 ^ (n - 2)) / (IZR (2 ^ (n - 2)) * 2))%R with (PI / 2)%R by (field; lra). rewrite cos_PI2. lra.
  - cbn [map]. apply IZR_lt in HM. unfold extremum. replace (PI * 0 / IZR (2 ^ (n - 1)))%R with 0%R by (field; lra). rewrite cos_0.
    replace (PI * IZR (2 ^ (n - 1)) / IZR (2 ^ (n - 1)))%R with PI by (field; lra). rewrite cos_PI. replace (- (-1))%R with 1%R by ring. reflexivity.
  - rewrite map_map. apply map_ext_in. intros t Ht'. apply snode_extremum; auto. apply (J_range n i); auto. unfold J. rewrite E1, E2. apply in_map_iff. exists t. auto.
Qed.
Lemma a_of_In n i x : 2 <= n -> tiny_ok tiny n -> 1 <= i <= n -> In x (A n i) <-> exists j, In j (J n i) /\ 0 <= j <= 2 ^ (n - 1) /\ x = extremum n j.
Proof.
  intros Hn Ht Hi. rewrite a_of_J by auto. rewrite in_map_iff. split.
  - intros (j & <- & Hj). exists j. repeat split; auto; eapply J_range; eauto.
  - intros (j & Hj & _ & ->). exists j. auto.
Qed.
Lemma a_of_NoDup n i : 2 <= n -> tiny_ok tiny n -> 1 <= i <= n -> NoDup (A n i).
Proof.
  intros Hn Ht Hi. rewrite a_of_J by auto. assert (G : forall l, (forall j, In j l -> 0 <= j <= 2 ^ (n - 1)) -> NoDup l -> NoDup (map (extremum n) l)).
  { induction l as [|x l IH]; intros Hr HN; cbn; constructor; inversion HN; subst.
    - intros Hx. apply in_map_iff in Hx as (y & E & Hy). apply extremum_inj in E; [|lia|apply Hr; now right|apply Hr; now left]. congruence.
    - apply IH; auto. intros; apply Hr; now right. }
  apply G; [|now apply J_NoDup]. intros j. now apply J_range.
Qed.
Lemma a_of_disjoint n a b x : 2 <= n -> tiny_ok tiny n -> 1 <= a <= n -> 1 <= b <= n -> In x (A n a) -> In x (A n b) -> a = b.
Proof.
  intros Hn Ht Ha Hb H1 H2. apply a_of_In in H1 as (j & Hj & Rj & ->); auto. apply a_of_In in H2 as (k & Hk & Rk & E); auto.
  apply extremum_inj in E; [|lia|auto|auto]. subst k. eapply J_disjoint; eauto.
Qed.
Lemma a_of_union n i x : 2 <= n -> tiny_ok tiny n -> 1 <= i <= n -> (exists k, 1 <= k <= i /\ In x (A n k)) <-> is_extremum i x.
Proof.
  intros Hn Ht Hi. unfold is_extremum. destruct (Z.eqb_spec i 1) as [->|].
  - split; [intros (k & Hk & Hx); assert (k = 1) as -> by lia; destruct Hx as [<-|[]]; reflexivity|]. intros ->. exists 1. split; [lia|]. now left.
  - split.
    + intros (k & Hk & Hx). apply a_of_In in Hx as (j & Hj & Rj & ->); auto; [|lia].
      destruct (proj1 (J_union n Hn i ltac:(lia) j)) as (q & Hq & ->); [exists k; auto|]. exists q. split; auto. symmetry. apply extremum_scale. lia.
    + intros (q & Hq & ->). destruct (proj2 (J_union n Hn i ltac:(lia) (2 ^ (n - i) * q))) as (k & Hk & Hj); [exists q; auto|].
      exists k. split; auto. apply a_of_In; auto; [lia|]. exists (2 ^ (n - i) * q). split; auto. split; [|apply extremum_scale; lia]. apply (J_range n k); auto; lia.
Qed.
Lemma a_of_bounds n i x : 2 <= n -> tiny_ok tiny n -> 1 <= i <= n -> In x (A n i) -> (-1 <= x <= 1)%R.
Proof. intros Hn Ht Hi H. apply a_of_In in H as (j & _ & _ & ->); auto. apply extremum_bounds. Qed.
Lemma tiny_mono n i : 2 <= i <= n -> tiny_ok tiny n -> tiny_ok tiny i.
Proof.
  intros H [H1 H2]. split; auto. eapply Rle_trans; [exact H2|]. apply Rinv_le_contravar; [apply IZR_lt, pow2_pos; lia|]. apply IZR_le. apply Z.pow_le_mono_r; lia.
Qed.
Lemma s_n_In i x : 1 <= i -> (2 <= i -> tiny_ok tiny i) -> In x (s_n PI cos tiny i) <-> is_extremum i x.
Proof.
  intros Hi Ht. unfold is_extremum. destruct (Z.eqb_spec i 1) as [->|].
  - cbn. split; [intros [<-|[]]; reflexivity|intros ->; now left].
  - rewrite s_n_map, in_map_iff by auto. split.
    + intros (j & <- & Hj). apply zrange_In in Hj. exists j. split; [lia|]. apply snode_extremum; [lia|apply Ht; lia|lia].
    + intros (j & Hj & ->). exists j. rewrite zrange_In. split; [|lia]. apply snode_extremum; [lia|apply Ht; lia|lia].
Qed.
End Nodes.
