(** phi_chain, a_chain, products over the chains: C39 and the generic part of C40, C41. *)
From Coq Require Import ZArith List Bool Lia ZifyBool Permutation.
From Verif Require Import Base BaseFacts CompleteGeneric SmolyakModel SpecSmolyak SmolyakPermute SmolyakInds.
Import ListNotations.
Open Scope Z_scope.
Open Scope num_scope.

(** ** Levels *)
Lemma pow2_pos k : 0 <= k -> 0 < 2 ^ k. Proof. intros. apply Z.pow_pos_nonneg; lia. Qed.
Lemma pow2_S k : 0 <= k -> 2 ^ (k + 1) = 2 * 2 ^ k.
Proof. intros. rewrite Z.pow_add_r by lia. lia. Qed.
Lemma last_1 : last_of_level 1 = 1. Proof. reflexivity. Qed.
Lemma last_2 : last_of_level 2 = 3. Proof. reflexivity. Qed.
Lemma last_ge2 i : 2 <= i -> last_of_level i = 2 ^ (i - 1) + 1.
Proof. intros. unfold last_of_level. destruct (i <=? 0) eqn:E; [lia|]. destruct (i =? 1) eqn:E1; [lia|reflexivity]. Qed.
Lemma last_S i : 3 <= i -> last_of_level i - last_of_level (i - 1) = 2 ^ (i - 2).
Proof. intros. rewrite !last_ge2 by lia. replace (i - 1) with (i - 2 + 1) by lia. rewrite pow2_S by lia. replace (i - 2 + 1 - 1) with (i - 2) by lia. lia. Qed.
Lemma last_step i : 1 <= i -> last_of_level (i - 1) < last_of_level i.
Proof.
  intros. destruct (Z.eq_dec i 1) as [->|]; [reflexivity|]. destruct (Z.eq_dec i 2) as [->|]; [reflexivity|].
  pose proof (last_S i ltac:(lia)). pose proof (pow2_pos (i - 2) ltac:(lia)). lia.
Qed.
Lemma last_mono i j : i <= j -> last_of_level i <= last_of_level j.
Proof.
  intros H. assert (forall n, last_of_level i <= last_of_level (i + Z.of_nat n)).
  { induction n as [|n IH]; [replace (i + Z.of_nat 0) with i by lia; lia|].
    destruct (Z.le_gt_cases (i + Z.of_nat (S n)) 0).
    - unfold last_of_level in *. destruct (i <=? 0) eqn:E; [|lia]. destruct (i + Z.of_nat (S n) <=? 0); [lia|]. destruct (i + Z.of_nat (S n) =? 1); [lia|]. pose proof (pow2_pos (i + Z.of_nat (S n) - 1)). lia.
    - pose proof (last_step (i + Z.of_nat (S n)) ltac:(lia)). replace (i + Z.of_nat (S n) - 1) with (i + Z.of_nat n) in * by lia. lia. }
  specialize (H0 (Z.to_nat (j - i))). replace (i + Z.of_nat (Z.to_nat (j - i))) with j in H0 by lia. exact H0.
Qed.
Lemma at_level_unique i j b : at_level i b -> at_level j b -> i = j.
Proof.
  unfold at_level. intros H1 H2. destruct (Z.lt_trichotomy i j) as [H|[H|H]]; auto; exfalso.
  - pose proof (last_mono i (j - 1) ltac:(lia)). lia.
  - pose proof (last_mono j (i - 1) ltac:(lia)). lia.
Qed.
Lemma m_i_last i : 0 <= i -> m_i i = Ok (last_of_level i).
Proof. intros. unfold m_i, last_of_level. destruct (i <? 0) eqn:E; [lia|]. destruct (i =? 0) eqn:E0; destruct (i <=? 0) eqn:E1; try lia; auto. destruct (i =? 1); auto. Qed.

Definition phi_of (i : Z) : list Z := zrange2 (last_of_level (i - 1) + 1) (last_of_level i + 1).
Lemma phi_of_In i b : In b (phi_of i) <-> at_level i b.
Proof. unfold phi_of, at_level. rewrite zrange2_In. lia. Qed.
Lemma phi_of_NoDup i : NoDup (phi_of i). Proof. apply zrange2_NoDup. Qed.
Lemma zrange2_len lo hi : lo <= hi -> zlen (zrange2 lo hi) = hi - lo.
Proof. intros. unfold zrange2. rewrite zlen_map, zlen_zrange; lia. Qed.
Lemma phi_of_len i : 1 <= i -> zlen (phi_of i) = last_of_level i - last_of_level (i - 1).
Proof. intros. unfold phi_of. pose proof (last_step i H). rewrite zrange2_len; lia. Qed.
Lemma zrange2_snoc lo hi : lo <= hi -> zrange2 lo (hi + 1) = zrange2 lo hi ++ [hi].
Proof. intros. unfold zrange2. replace (hi + 1 - lo) with (hi - lo + 1) by lia. rewrite zrange_S, map_app by lia. cbn. do 2 f_equal. lia. Qed.

Lemma phi_loop n : 2 <= n ->
  let s := fold_left (fun s i => let '(chain, curr_val) := s in let end_val := 2 ^ (i - 1) + 1 in
         ((i, zrange2 curr_val (end_val + 1)) :: chain, end_val + 1)) (zrange2 3 (n + 1)) ([(2, [2; 3]); (1, [1])], 4) in
  (forall i, 1 <= i <= n -> dget (fst s) i = Ok (phi_of i)) /\ snd s = last_of_level n + 1.
Proof.
  intros Hn. pattern n. apply (Zlt_lower_bound_ind _ 2); auto. clear n Hn. intros n IH Hn.
  destruct (Z.eq_dec n 2) as [->|].
  - cbn. split; [|reflexivity]. intros i Hi. assert (i = 1 \/ i = 2) as [->| ->] by lia; reflexivity.
  - specialize (IH (n - 1) ltac:(lia)). replace (n - 1 + 1) with n in IH by lia. rewrite zrange2_snoc, fold_left_app by lia. cbv zeta in *.
    destruct (fold_left _ (zrange2 3 n) _) as [chain cur]. cbn [fst snd] in IH. destruct IH as [IH ->]. cbn [fold_left fst snd]. split.
    + intros i Hi. cbn [dget]. destruct (Z.eqb_spec n i) as [<-|].
      * unfold phi_of. rewrite (last_ge2 n) by lia. reflexivity.
      * apply IH. lia.
    + rewrite last_ge2 by lia. reflexivity.
Qed.
Theorem phi_chain_get n i : 1 <= i <= n -> dget (phi_chain n) i = Ok (phi_of i).
Proof.
  intros H. unfold phi_chain. destruct (Z.eq_dec n 1) as [->|].
  - assert (i = 1) as -> by lia. reflexivity.
  - apply phi_loop; lia.
Qed.

(** ** evens, odds *)
Section Split.
Context {A : Type}.
Lemma seq_0S k : seq 0 (S k) = O :: map S (seq 0 k). Proof. cbn. now rewrite seq_shift. Qed.
Lemma split_seq (f : nat -> A) m : forall a,
  evens (map f (seq a (S (2 * m)))) = map (fun j => f (a + 2 * j)%nat) (seq 0 (S m)) /\
  odds (map f (seq a (S (2 * m)))) = map (fun j => f (a + 2 * j + 1)%nat) (seq 0 m).
Proof.
  induction m as [|m IH]; intros a.
  - cbn. split; auto. now rewrite Nat.add_0_r.
  - replace (S (2 * S m)) with (S (S (S (2 * m)))) by lia.
    change (seq a (S (S (S (2 * m))))) with (a :: S a :: seq (S (S a)) (S (2 * m))). rewrite !map_cons. destruct (IH (S (S a))) as [E O]. split.
    + change (evens (?x :: ?y :: ?l)) with (x :: evens l). rewrite E, (seq_0S (S m)), map_cons, map_map. f_equal; [f_equal; lia|]. apply map_ext. intros j. f_equal. lia.
    + change (odds (?x :: ?y :: ?l)) with (y :: odds l). rewrite O, (seq_0S m), map_cons, map_map. f_equal; [f_equal; lia|]. apply map_ext. intros j. f_equal. lia.
Qed.
Lemma evens_z (f : Z -> A) m : 0 <= m -> evens (map f (zrange (2 * m + 1))) = map (fun j => f (2 * j)) (zrange (m + 1)).
Proof.
  intros. unfold zrange. rewrite !map_map. replace (Z.to_nat (2 * m + 1)) with (S (2 * Z.to_nat m)) by lia. replace (Z.to_nat (m + 1)) with (S (Z.to_nat m)) by lia.
  rewrite (proj1 (split_seq _ _ _)). apply map_ext. intros j. f_equal. lia.
Qed.
Lemma odds_z (f : Z -> A) m : 0 <= m -> odds (map f (zrange (2 * m + 1))) = map (fun j => f (2 * j + 1)) (zrange m).
Proof.
  intros. unfold zrange. rewrite !map_map. replace (Z.to_nat (2 * m + 1)) with (S (2 * Z.to_nat m)) by lia.
  rewrite (proj2 (split_seq _ _ _)). apply map_ext. intros j. f_equal. lia.
Qed.
End Split.

(** ** Products over a family of lists *)
Section Product.
Context {A : Type}.
Lemma iproduct_In (L : list (list A)) : forall v, In v (iproduct L) <-> Forall2 (fun l x => In x l) L v.
Proof.
  induction L as [|l L IH]; intros v; cbn [iproduct].
  - split; [intros [<-|[]]; constructor|]. intros H. inversion H. now left.
  - rewrite in_flat_map. split.
    + intros (a & Ha & Hv). apply in_map_iff in Hv as (w & <- & Hw). constructor; auto. now apply IH.
    + intros H. inversion H; subst. exists y. split; auto. apply in_map. now apply IH.
Qed.
Lemma iproduct_NoDup (L : list (list A)) : Forall (@NoDup A) L -> NoDup (iproduct L).
Proof.
  induction 1 as [|l L Hl HL IH]; cbn [iproduct]; [repeat constructor; intros []|]. apply NoDup_flat_map; auto.
  - intros a _. apply FinFun.Injective_map_NoDup; auto. intros x y; congruence.
  - intros a b x _ _ Ha Hb. apply in_map_iff in Ha as (? & <- & _). apply in_map_iff in Hb as (? & E & _). congruence.
Qed.
Fixpoint prodl (l : list Z) : Z := match l with [] => 1 | x :: r => x * prodl r end.
Lemma flat_map_len {B C} (f : B -> list C) k l : (forall x, In x l -> zlen (f x) = k) -> zlen (flat_map f l) = zlen l * k.
Proof. induction l as [|x l IH]; intros H; [reflexivity|]. cbn [flat_map]. rewrite zlen_app, zlen_cons, (H x (or_introl eq_refl)), IH by (intros; apply H; now right). lia. Qed.
Lemma iproduct_len (L : list (list A)) : zlen (iproduct L) = prodl (map zlen L).
Proof. induction L as [|l L IH]; [reflexivity|]. cbn [iproduct map prodl]. rewrite (flat_map_len _ (prodl (map zlen L))); auto. intros x _. now rewrite zlen_map. Qed.

(** All products for a list of indices. *)
Definition tensor (f : Z -> list A) (inds : list (list Z)) : list (list A) := flat_map (fun el => iproduct (map f el)) inds.
Lemma tensor_In f inds v : In v (tensor f inds) <-> exists el, In el inds /\ Forall2 (fun i x => In x (f i)) el v.
Proof.
  unfold tensor. rewrite in_flat_map. split; intros (el & H1 & H2); exists el; split; auto.
  - apply iproduct_In in H2. clear - H2. remember (map f el) as L eqn:HL. revert el HL. induction H2; intros [|i el] E; try discriminate; constructor; injection E as -> ->; auto.
  - apply iproduct_In. clear - H2. induction H2; cbn; constructor; auto.
Qed.
Lemma tensor_NoDup f inds : NoDup inds -> (forall el i, In el inds -> In i el -> NoDup (f i)) ->
  (forall el el' i j x, In el inds -> In el' inds -> In i el -> In j el' -> In x (f i) -> In x (f j) -> i = j) -> NoDup (tensor f inds).
Proof.
  intros HN Hf Hd. unfold tensor. apply NoDup_flat_map; auto.
  - intros el Hel. apply iproduct_NoDup. apply Forall_forall. intros l Hl. apply in_map_iff in Hl as (i & <- & Hi). eauto.
  - intros el el' v Hel Hel' Hv Hv'.
    assert (T : forall el, In v (iproduct (map f el)) -> Forall2 (fun i x => In x (f i)) el v).
    { intros e Hp. apply iproduct_In in Hp. clear - Hp. remember (map f e) as L eqn:HL. revert e HL. induction Hp; intros [|i e] E; try discriminate; constructor; injection E as -> ->; auto. }
    apply T in Hv, Hv'. assert (Hd' : forall i j x, In i el -> In j el' -> In x (f i) -> In x (f j) -> i = j) by eauto. clear - Hv Hv' Hd'.
    revert el' Hv' Hd'. induction Hv as [|i x el v Hi Hv IH]; intros el' Hv' Hd; inversion Hv'; subst; auto. f_equal.
    + eapply (Hd i x0); eauto; now left.
    + apply IH; auto. intros a b y Ha Hb. apply Hd; now right.
Qed.
Definition count (w : Z -> Z) (inds : list (list Z)) : Z := fold_right (fun el a => prodl (map w el) + a) 0 inds.
Lemma tensor_len f w inds : (forall el i, In el inds -> In i el -> zlen (f i) = w i) -> zlen (tensor f inds) = count w inds.
Proof.
  induction inds as [|el inds IH]; intros H; [reflexivity|]. cbn [tensor flat_map count fold_right]. rewrite zlen_app, iproduct_len. f_equal.
  - f_equal. rewrite map_map. apply map_ext_in. intros i Hi. apply (H el); [now left|auto].
  - apply IH. intros e i He. apply H. now right.
Qed.
End Product.

Lemma mapM_dget {A} (ch : dict A) (f : Z -> A) el : (forall i, In i el -> dget ch i = Ok (f i)) -> mapM (dget ch) el = Ok (map f el).
Proof. apply mapM_all_ok. Qed.
Lemma mapM_tensor {A} (ch : dict (list A)) (f : Z -> list A) inds : (forall el i, In el inds -> In i el -> dget ch i = Ok (f i)) ->
  (l <- mapM (fun el => temp <- mapM (dget ch) el ;; Ok (iproduct temp)) inds ;; Ok (concat l)) = Ok (tensor f inds).
Proof.
  intros H. rewrite (mapM_all_ok _ (fun el => iproduct (map f el))).
  - cbn [bind]. unfold tensor. now rewrite flat_map_concat_map.
  - intros el Hel. rewrite (mapM_dget _ f); [reflexivity|]. eauto.
Qed.

(** ** a_chain *)
Section Chain.
Context {T : Type} {NT : Num T}.
Variables (np_pi : T) (np_cos : T -> T) (tiny : T).

Definition snode (n j : Z) : T :=
  let v := n_ofZ (-1) *! np_cos (np_pi *! (n_ofZ (1 + j) -! n_ofZ 1) /! (n_ofZ (2 ^ (n - 1) + 1) -! n_ofZ 1)) in
  if nabs v <?! tiny then n_ofZ 0 else v.
Lemma s_n_map n : n <> 1 -> s_n np_pi np_cos tiny n = map (snode n) (zrange (2 ^ (n - 1) + 1)).
Proof. intros H. unfold s_n. destruct (n =? 1) eqn:E; [lia|]. unfold zrange2. rewrite map_map. f_equal. f_equal. lia. Qed.

Lemma zrange_down_cons hi lo : lo < hi -> zrange_down hi lo = hi :: zrange_down (hi - 1) lo.
Proof.
  intros. unfold zrange_down. rewrite zrange_cons, map_cons, map_map by lia. f_equal; [lia|]. replace (hi - 1 - lo) with (hi - lo - 1) by lia. apply map_ext. intros; lia.
Qed.
Lemma chain_loop (F : Z -> T) : forall k hi ch0 i, hi = 2 + Z.of_nat k ->
  dget (fst (fold_left (fun s seq => let '(chain, Sn) := s in ((seq, odds Sn) :: chain, @evens T Sn)) (zrange_down hi 2)
     (ch0, map F (zrange (2 ^ (hi - 1) + 1))))) i =
  if (2 <? i) && (i <=? hi) then Ok (map (fun j => F (2 ^ (hi - i) * (2 * j + 1))) (zrange (2 ^ (i - 2)))) else dget ch0 i.
Proof.
  intros k. revert F. induction k as [|k IH]; intros F hi ch0 i Hk.
  - unfold zrange_down. rewrite zrange_nil by lia. cbn [map fold_left fst]. destruct ((2 <? i) && (i <=? hi)) eqn:E; [lia|reflexivity].
  - rewrite zrange_down_cons by lia. cbn [fold_left].
    assert (Hp : 2 ^ (hi - 1) + 1 = 2 * 2 ^ (hi - 2) + 1) by (replace (hi - 1) with (hi - 2 + 1) by lia; rewrite pow2_S by lia; reflexivity).
    pose proof (pow2_pos (hi - 2) ltac:(lia)).
    rewrite Hp, odds_z, evens_z by lia. replace (2 ^ (hi - 2) + 1) with (2 ^ (hi - 1 - 1) + 1) by (do 2 f_equal; lia).
    rewrite IH by lia. cbn [dget]. destruct (Z.eqb_spec hi i) as [<-|].
    + destruct ((2 <? hi) && (hi <=? hi - 1)) eqn:E; [lia|]. destruct ((2 <? hi) && (hi <=? hi)) eqn:E'; [|lia]. f_equal. rewrite Z.sub_diag. apply map_ext. intros j. f_equal. lia.
    + destruct ((2 <? i) && (i <=? hi - 1)) eqn:E; destruct ((2 <? i) && (i <=? hi)) eqn:E'; try lia; auto. f_equal. apply map_ext. intros j. f_equal.
      replace (hi - i) with (hi - 1 - i + 1) by lia. rewrite pow2_S by lia. lia.
Qed.
Definition a_of (n i : Z) : list T :=
  if i =? 1 then [n_ofZ 0] else if i =? 2 then [n_ofZ (-1); n_ofZ 1]
  else map (fun j => snode n (2 ^ (n - i) * (2 * j + 1))) (zrange (2 ^ (i - 2))).
Theorem a_chain_get n i : 1 <= i <= n -> dget (a_chain (s_n np_pi np_cos tiny n) n) i = Ok (a_of n i).
Proof.
  intros H. unfold a_chain, a_of. destruct (Z.eq_dec n 1) as [->|].
  - assert (i = 1) as -> by lia. reflexivity.
  - rewrite s_n_map, (chain_loop _ (Z.to_nat (n - 2))) by lia. cbn [dget].
    destruct (i =? 1) eqn:E1; [assert (i = 1) as -> by lia; reflexivity|]. destruct (i =? 2) eqn:E2; [assert (i = 2) as -> by lia; reflexivity|].
    destruct ((2 <? i) && (i <=? n)) eqn:E; [reflexivity|lia].
Qed.
Lemma a_of_len n i : 1 <= i <= n -> zlen (a_of n i) = last_of_level i - last_of_level (i - 1).
Proof.
  intros H. unfold a_of. destruct (i =? 1) eqn:E1; [assert (i = 1) as -> by lia; reflexivity|]. destruct (i =? 2) eqn:E2; [assert (i = 2) as -> by lia; reflexivity|].
  pose proof (pow2_pos (i - 2) ltac:(lia)). rewrite zlen_map, zlen_zrange, last_S by lia. reflexivity.
Qed.

(** ** Points and basis indices *)
Definition good_inds (mu : mu_t) (m : Z) (inds : list (list Z)) : Prop :=
  max_mu mu = Ok m /\ forall el i, In el inds -> In i el -> 1 <= i <= m + 1.
Lemma build_points_tensor mu m inds : good_inds mu m inds ->
  build_points (s_n np_pi np_cos tiny) mu inds = Ok (tensor (a_of (m + 1)) inds).
Proof. intros [Hm Hi]. unfold build_points. rewrite Hm. cbn [bind]. apply mapM_tensor. intros el i H1 H2. apply a_chain_get. eauto. Qed.
Lemma poly_inds_tensor mu m inds : good_inds mu m inds -> poly_inds_of mu inds = Ok (tensor phi_of inds).
Proof. intros [Hm Hi]. unfold poly_inds_of. rewrite Hm. cbn [bind]. apply mapM_tensor. intros el i H1 H2. apply phi_chain_get. eauto. Qed.
Lemma same_count mu m inds : good_inds mu m inds -> zlen (tensor (a_of (m + 1)) inds) = zlen (tensor phi_of inds).
Proof.
  intros [Hm Hi]. rewrite !(tensor_len _ (fun i => last_of_level i - last_of_level (i - 1))); auto; intros el i H1 H2; specialize (Hi el i H1 H2).
  - apply phi_of_len. lia.
  - apply a_of_len. lia.
Qed.
End Chain.

Lemma iso_entries d m v i : iso_index d m v -> In i v -> 1 <= i <= m + 1.
Proof.
  intros (HL & HF & HT) Hi. assert (HE : Forall (fun i => i <= m + 1) v) by (apply entry_le; auto; lia).
  rewrite Forall_forall in *. specialize (HF i Hi). specialize (HE i Hi). lia.
Qed.
Lemma good_iso d m inds : (forall v, In v inds -> iso_index d m v) -> good_inds (MuInt m) m inds.
Proof. intros H. split; auto. intros el i Hel. eapply iso_entries; eauto. Qed.
Lemma good_aniso d l m inds : density l m -> (forall v, In v inds -> aniso_index d l m v) -> good_inds (MuArr l) m inds.
Proof. intros Hd H. split; [now apply max_list_density|]. intros el i Hel. apply H in Hel as [Hel _]. eapply iso_entries; eauto. Qed.

(** ** The number of points *)
Fixpoint canon (d : nat) (m : Z) : list (list Z) :=
  match d with
  | O => [[]]
  | S d' => flat_map (fun j => map (cons (j + 1)) (canon d' (m - j))) (zrange (m + 1))
  end.
Lemma canon_In d : forall m v, 0 <= m -> In v (canon d m) <-> iso_index (Z.of_nat d) m v.
Proof.
  unfold iso_index. induction d as [|d IH]; intros m v Hm; cbn [canon].
  - split.
    + intros [<-|[]]. split; [reflexivity|]. split; [constructor|cbn; lia].
    + intros (H & _). destruct v; [now left|unfold zlen in H; cbn in H; lia].
  - rewrite in_flat_map. split.
    + intros (j & Hj & Hv). apply zrange_In in Hj. apply in_map_iff in Hv as (w & <- & Hw). apply IH in Hw as (A & B & C); [|lia].
      rewrite zlen_cons, total_cons. repeat split; [lia| |lia]. constructor; auto. lia.
    + intros (A & B & C). destruct v as [|x v]; [unfold zlen in A; cbn in A; lia|]. inversion B; subst. rewrite zlen_cons in A. rewrite total_cons in C.
      pose proof (total_ge v H2). exists (x - 1). rewrite zrange_In. split; [lia|]. replace (x - 1 + 1) with x by lia. apply in_map. apply IH; [lia|]. repeat split; auto; lia.
Qed.
Lemma canon_NoDup d : forall m, NoDup (canon d m).
Proof.
  induction d as [|d IH]; intros m; cbn [canon]; [repeat constructor; intros []|]. apply NoDup_flat_map; [apply zrange_NoDup| |].
  - intros j _. apply FinFun.Injective_map_NoDup; auto. intros a b; congruence.
  - intros a b x _ _ Ha Hb. apply in_map_iff in Ha as (? & <- & _). apply in_map_iff in Hb as (? & E & _). injection E as E _. lia.
Qed.
Lemma count_perm w l m : Permutation l m -> count w l = count w m.
Proof. unfold count. induction 1; cbn; lia. Qed.
Lemma count_app w l m : count w (l ++ m) = count w l + count w m.
Proof. unfold count. induction l; cbn; [lia|]. rewrite IHl. lia. Qed.
Lemma count_cons w x l : count w (map (cons x) l) = w x * count w l.
Proof. unfold count. induction l; cbn; [lia|]. rewrite IHl. lia. Qed.
Definition weight (i : Z) : Z := last_of_level i - last_of_level (i - 1).
Definition N (d : nat) (m : Z) : Z := count weight (canon d m).
Lemma N_O m : N 0 m = 1. Proof. reflexivity. Qed.
Lemma N_closed d : N d 0 = 1 /\ N d 1 = 2 * Z.of_nat d + 1 /\
  N d 2 = 1 + 4 * Z.of_nat d + 2 * Z.of_nat d * (Z.of_nat d - 1) /\
  3 * N d 3 = 3 * (1 + 8 * Z.of_nat d + 6 * Z.of_nat d * (Z.of_nat d - 1)) + 4 * Z.of_nat d * (Z.of_nat d - 1) * (Z.of_nat d - 2).
Proof.
  induction d as [|d (I0 & I1 & I2 & I3)]; [repeat split; reflexivity|]. unfold N in *. cbn [canon].
  change (zrange (0 + 1)) with [0]. change (zrange (1 + 1)) with [0; 1]. change (zrange (2 + 1)) with [0; 1; 2]. change (zrange (3 + 1)) with [0; 1; 2; 3].
  cbn [flat_map]. rewrite !count_app, !count_cons. change (0 + 1) with 1. change (1 + 1) with 2. change (2 + 1) with 3. change (3 + 1) with 4.
  change (0 - 0) with 0. change (1 - 0) with 1. change (1 - 1) with 0. change (2 - 0) with 2. change (2 - 1) with 1. change (2 - 2) with 0. change (3 - 0) with 3. change (3 - 1) with 2. change (3 - 2) with 1. change (3 - 3) with 0.
  change (weight 1) with 1. change (weight 2) with 2. change (weight 3) with 2. change (weight 4) with 4. change (count weight []) with 0.
  rewrite !Nat2Z.inj_succ. repeat split; try lia; nia.
Qed.
Lemma num_grid_points_N d m : 0 <= d -> 1 <= m <= 3 -> num_grid_points d m = Some (N (Z.to_nat d) m).
Proof.
  intros Hd Hm. destruct (N_closed (Z.to_nat d)) as (_ & I1 & I2 & I3). rewrite Z2Nat.id in * by lia. unfold num_grid_points.
  assert (m = 1 \/ m = 2 \/ m = 3) as [->|[->| ->]] by lia; cbn [Z.eqb Pos.eqb].
  - now rewrite I1.
  - rewrite I2. replace (4 * d * (d - 1)) with (2 * d * (d - 1) * 2) by ring. now rewrite Z.div_mul by lia.
  - replace (12 * d * (d - 1)) with (6 * d * (d - 1) * 2) by ring. rewrite Z.div_mul by lia.
    f_equal. assert (E : 8 * d * (d - 1) * (d - 2) = (N (Z.to_nat d) 3 - (1 + 8 * d + 6 * d * (d - 1))) * 6) by lia. rewrite E, Z.div_mul by lia. lia.
Qed.
Theorem num_grid_points_exact d : 0 <= d -> (2 | 4 * d * (d - 1)) /\ (2 | 12 * d * (d - 1)) /\ (6 | 8 * d * (d - 1) * (d - 2)).
Proof.
  intros Hd. destruct (N_closed (Z.to_nat d)) as (_ & _ & _ & I3). rewrite Z2Nat.id in * by lia. repeat split; [exists (2 * d * (d - 1)); ring|exists (6 * d * (d - 1)); ring|].
  exists (N (Z.to_nat d) 3 - (1 + 8 * d + 6 * d * (d - 1))). lia.
Qed.
Section Count.
Context {T : Type} {NT : Num T}.
Theorem grid_count (np_pi : T) (np_cos : T -> T) (tiny : T) d m : 2 <= d -> 1 <= m -> exists g,
  build_grid (s_n np_pi np_cos tiny) d (MuInt m) = Ok g /\ ashape g = [N (Z.to_nat d) m; d].
Proof.
  intros Hd Hm. destruct (smol_inds_iso d m Hd ltac:(lia)) as (L & E & ND & V). unfold build_grid, build_grid_of. rewrite E. cbn [bind].
  assert (G : good_inds (MuInt m) m L) by (apply (good_iso d); intros v Hv; now apply V).
  rewrite (build_points_tensor _ _ _ _ _ _ G). cbn [bind]. eexists. split; [reflexivity|]. unfold of_rows. cbn [ashape].
  assert (Hlen : zlen (tensor (a_of np_pi np_cos tiny (m + 1)) L) = N (Z.to_nat d) m).
  { rewrite (tensor_len _ weight). { unfold N. apply count_perm. apply NoDup_Permutation; auto; [apply canon_NoDup|]. intros v. rewrite V, canon_In by lia. now rewrite Z2Nat.id by lia. }
    intros el i Hel Hi. apply a_of_len. destruct G as [_ G]. eauto. }
  rewrite Hlen. f_equal. f_equal.
  destruct (tensor (a_of np_pi np_cos tiny (m + 1)) L) as [|p ps] eqn:Ep.
  - exfalso. assert (Hin : In (repeat 1 (Z.to_nat d)) L).
    { apply V. split; [unfold zlen; rewrite repeat_length; lia|]. rewrite total_repeat. split; [|lia]. apply Forall_forall. intros x Hx. apply repeat_spec in Hx. lia. }
    assert (Hin' : In (repeat (n_ofZ 0) (Z.to_nat d)) (tensor (a_of np_pi np_cos tiny (m + 1)) L)); [|rewrite Ep in Hin'; destruct Hin'].
    apply tensor_In. eexists. split; [exact Hin|]. clear. induction (Z.to_nat d); cbn; constructor; auto. now left.
  - cbn [hd]. assert (Hp : In p (tensor (a_of np_pi np_cos tiny (m + 1)) L)) by (rewrite Ep; now left).
    apply tensor_In in Hp as (el & Hel & HF). apply V in Hel as (Hl & _). apply Forall2_length in HF. unfold zlen in *. lia.
Qed.
End Count.
