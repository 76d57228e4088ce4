(** C38-C41: the grid and the basis over the reals. *)
From Coq Require Import ZArith List Bool Lia ZifyBool Reals Lra Psatz.
From Verif Require Import Base BaseFacts RSum CompleteModel CompleteGeneric SmolyakModel SpecSmolyak SmolyakInds SmolyakChains SmolyakNodes.
Import ListNotations.
Open Scope Z_scope.

Lemma density_max d mu m : density_ok d mu m -> max_mu mu = Ok m /\ 1 <= m.
Proof.
  destruct mu as [k|l]; cbn.
  - intros [H ->]. auto.
  - intros (HL & HF & HD). split; [now apply max_list_density|]. destruct HD as [HI _]. rewrite Forall_forall in HF. auto.
Qed.
Theorem smol_inds_all d mu m : 2 <= d -> density_ok d mu m -> exists L, smol_inds d mu = Ok L /\ NoDup L /\ forall v, In v L <-> smolyak_index d mu m v.
Proof.
  intros Hd Hm. destruct mu as [k|l]; cbn in Hm.
  - destruct Hm as [H ->]. apply smol_inds_iso; lia.
  - destruct Hm as (HL & HF & HD). apply smol_inds_aniso; auto. eapply Forall_impl; [|exact HF]. cbn. intros; lia.
Qed.
Lemma index_iso d mu m v : smolyak_index d mu m v -> iso_index d m v.
Proof. destruct mu; cbn; [auto|]. intros [H _]. exact H. Qed.
Lemma index_good d mu m L : density_ok d mu m -> (forall v, In v L -> smolyak_index d mu m v) -> good_inds mu m L.
Proof.
  intros Hm H. split; [eapply density_max; eauto|]. intros el i Hel Hi. apply H, index_iso in Hel. eapply iso_entries; eauto.
Qed.
Lemma ones_index d mu m : 2 <= d -> density_ok d mu m -> smolyak_index d mu m (repeat 1 (Z.to_nat d)).
Proof.
  intros Hd Hm. assert (HI : iso_index d m (repeat 1 (Z.to_nat d))).
  { split; [unfold zlen; rewrite repeat_length; lia|]. split; [apply Forall_forall; intros x Hx; apply repeat_spec in Hx; lia|]. rewrite total_repeat.
    pose proof (proj2 (density_max d mu m Hm)). lia. }
  destruct mu as [k|l]; cbn; auto. split; auto. destruct Hm as (HL & HF & _). replace (Z.to_nat d) with (length l) by (unfold zlen in HL; lia). clear -HF.
  induction HF; cbn; constructor; auto. lia.
Qed.

Lemma Forall2_imp {A B} (P Q : A -> B -> Prop) l m : (forall x y, In x l -> P x y -> Q x y) -> Forall2 P l m -> Forall2 Q l m.
Proof. intros H HF. induction HF; constructor; [apply H; [now left|auto]|apply IHHF; intros; apply H; [now right|auto]]. Qed.

Section Tensor.
Variables (tiny : R) (d : Z) (mu : mu_t) (m : Z).
Hypothesis (Hd : 2 <= d) (Hm : density_ok d mu m) (Ht : tiny_ok tiny (m + 1)).
Notation A := (@a_of R NumR PI cos tiny (m + 1)).
Lemma m_pos : 1 <= m. Proof. eapply density_max; eauto. Qed.
Variable L : list (list Z).
Hypothesis (HN : NoDup L) (HL : forall v, In v L <-> smolyak_index d mu m v).
Lemma L_good : good_inds mu m L. Proof. eapply index_good; eauto. intros v. apply HL. Qed.
Lemma entry_range el i : In el L -> In i el -> 1 <= i <= m + 1.
Proof. destruct L_good as [_ H]. apply H. Qed.
Lemma points_NoDup : NoDup (tensor A L).
Proof.
  pose proof m_pos. apply tensor_NoDup; auto.
  - intros el i H1 H2. apply a_of_NoDup; auto; [lia|]. apply (entry_range el); auto.
  - intros el el' i i' x H1 H2 Hi Hi' Hx Hx'. apply (a_of_disjoint tiny (m + 1) i i' x); auto; [lia|apply (entry_range el); auto|apply (entry_range el'); auto].
Qed.
Lemma pinds_NoDup : NoDup (tensor phi_of L).
Proof.
  apply tensor_NoDup; auto.
  - intros el i H1 H2. apply phi_of_NoDup.
  - intros el el' i i' x H1 H2 Hi Hi' Hx Hx'. rewrite phi_of_In in *. eapply at_level_unique; eauto.
Qed.
Lemma points_nonempty : tensor A L <> [].
Proof.
  intros E. assert (H : In (repeat 0%R (Z.to_nat d)) (tensor A L)); [|rewrite E in H; destruct H].
  apply tensor_In. exists (repeat 1 (Z.to_nat d)). split; [apply HL, ones_index; auto|]. clear. induction (Z.to_nat d); cbn; constructor; auto. now left.
Qed.
Lemma point_len v : In v (tensor A L) -> zlen v = d.
Proof. intros H. apply tensor_In in H as (el & Hel & HF). apply HL, index_iso in Hel as (Hl & _). apply Forall2_length in HF. unfold zlen in *. lia. Qed.
Lemma pind_spec b : In b (tensor phi_of L) <-> exists v, smolyak_index d mu m v /\ Forall2 at_level v b.
Proof.
  rewrite tensor_In. split; intros (el & Hel & HF); exists el; rewrite <- HL in *; (split; [auto|]); [|]; revert HF; apply Forall2_imp; intros i x _; apply phi_of_In.
Qed.
Lemma pinds_ok : indices_ok d m (tensor phi_of L).
Proof.
  apply Forall_forall. intros b Hb. apply tensor_In in Hb as (el & Hel & HF). pose proof (proj1 (HL el) Hel) as Hel'. apply index_iso in Hel' as (Hl & _).
  split; [apply Forall2_length in HF; unfold zlen in *; lia|].
  assert (Hr : forall i, In i el -> 1 <= i <= m + 1) by (intros i Hi; eapply entry_range; eauto). clear Hel Hl. pose proof m_pos.
  induction HF as [|i x el b Hx HF IH]; constructor; [|apply IH; intros; apply Hr; now right].
  specialize (Hr i (or_introl eq_refl)). rewrite phi_of_In in Hx. unfold at_level in Hx. pose proof (last_mono i (m + 1) ltac:(lia)) as H1. rewrite (last_ge2 (m + 1)) in H1 by lia. replace (m + 1 - 1) with m in H1 by lia.
  pose proof (last_mono 0 (i - 1) ltac:(lia)) as H2. change (last_of_level 0) with 0 in H2. lia.
Qed.
Lemma of_rows_shape : ashape (of_rows (tensor A L)) = [zlen (tensor phi_of L); d].
Proof.
  unfold of_rows. cbn [ashape]. rewrite (same_count PI cos tiny mu m L L_good). f_equal. f_equal. destruct (tensor A L) as [|p ps] eqn:E; [now apply points_nonempty in E|].
  cbn [hd]. apply point_len. rewrite E. now left.
Qed.
Lemma of_rows_row p : 0 <= p < zlen (tensor phi_of L) -> mrow d (of_rows (tensor A L)) p = nth (Z.to_nat p) (tensor A L) [].
Proof.
  intros Hp. rewrite <- (same_count PI cos tiny mu m L L_good) in Hp. set (v := nth (Z.to_nat p) (tensor A L) []).
  assert (Hv : zlen v = d) by (apply point_len; apply nth_In; unfold zlen in Hp; lia).
  apply (nth_ext _ _ 0%R 0%R); [unfold mrow; rewrite map_length, zrange_length; unfold zlen in Hv; lia|]. unfold mrow at 1. rewrite map_length, zrange_length. intros k Hk.
  rewrite (nth_indep _ 0%R (acell (of_rows (tensor A L)) [p; 0])) by (unfold mrow; rewrite map_length, zrange_length; auto).
  unfold mrow. rewrite (map_nth (fun k => acell (of_rows (tensor A L)) [p; k])). unfold zrange. rewrite (nth_indep _ 0 (Z.of_nat 0)) by (rewrite map_length, seq_length; lia).
  rewrite (map_nth Z.of_nat), seq_nth by lia. cbn [of_rows acell nth]. rewrite Nat2Z.id. reflexivity.
Qed.
End Tensor.

Section Grid.
Variable tiny : R.
Notation sn := (s_n PI cos tiny).
(** The grid and the basis, in full. *)
Theorem grid_basis d mu m : 2 <= d -> density_ok d mu m -> tiny_ok tiny (m + 1) -> exists L g P,
  smol_inds d mu = Ok L /\ build_grid_of sn mu L = Ok g /\ poly_inds_of mu L = Ok P /\ ashape g = [zlen P; d] /\
  (forall p, 0 <= p < zlen P -> exists v, smolyak_index d mu m v /\ Forall2 (fun i x => In x (@a_of R NumR PI cos tiny (m + 1) i)) v (mrow d g p)) /\
  (forall v x, smolyak_index d mu m v -> Forall2 (fun i t => In t (@a_of R NumR PI cos tiny (m + 1) i)) v x -> exists p, 0 <= p < zlen P /\ mrow d g p = x) /\
  (forall p q, 0 <= p < zlen P -> 0 <= q < zlen P -> mrow d g p = mrow d g q -> p = q) /\
  NoDup P /\ (forall b, In b P <-> exists v, smolyak_index d mu m v /\ Forall2 at_level v b) /\ indices_ok d m P.
Proof.
  intros Hd Hm Ht. destruct (smol_inds_all d mu m Hd Hm) as (L & HE & HN & HL). pose proof (L_good d mu m Hm L HL) as G.
  pose proof (same_count PI cos tiny mu m L G) as HC.
  exists L, (of_rows (tensor (a_of PI cos tiny (m + 1)) L)), (tensor phi_of L).
  split; auto. split; [unfold build_grid_of; now rewrite (build_points_tensor PI cos tiny _ _ _ G)|]. split; [now apply (poly_inds_tensor mu m)|].
  split; [now apply (of_rows_shape tiny d mu m)|].
  assert (Hrow := of_rows_row tiny d mu m Hd Hm L HL).
  split; [|split; [|split; [|split; [|split]]]].
  - intros p Hp. rewrite Hrow by auto. assert (Hin : In (nth (Z.to_nat p) (tensor (@a_of R NumR PI cos tiny (m + 1)) L) []) (tensor (a_of PI cos tiny (m + 1)) L)) by (apply nth_In; unfold zlen in *; lia).
    apply tensor_In in Hin as (el & Hel & HF). exists el. split; auto. now apply HL.
  - intros v x Hv HF. assert (Hin : In x (tensor (@a_of R NumR PI cos tiny (m + 1)) L)) by (apply tensor_In; exists v; split; auto; now apply HL).
    apply In_nth with (d := []) in Hin as (k & Hk & Ek). exists (Z.of_nat k). split; [unfold zlen in *; lia|]. rewrite Hrow by (unfold zlen in *; lia). now rewrite Nat2Z.id.
  - intros p q Hp Hq. rewrite !Hrow by auto. intros E. pose proof (points_NoDup tiny d mu m Hm Ht L HN HL) as ND. rewrite (NoDup_nth _ []) in ND. apply ND in E; unfold zlen in *; lia.
  - now apply (pinds_NoDup L).
  - intros b. now apply (pind_spec d mu m L).
  - now apply (pinds_ok d mu m).
Qed.

Theorem grid_distinct d mu m : 2 <= d -> density_ok d mu m -> tiny_ok tiny (m + 1) -> exists g P,
  build_grid sn d mu = Ok g /\ poly_inds d mu = Ok P /\ ashape g = [zlen P; d] /\
  (forall p q, 0 <= p < zlen P -> 0 <= q < zlen P -> mrow d g p = mrow d g q -> p = q) /\
  (forall p k, 0 <= p < zlen P -> 0 <= k < d -> (-1 <= acell g [p; k] <= 1)%R) /\
  NoDup P /\ (forall b, In b P <-> exists v, smolyak_index d mu m v /\ Forall2 at_level v b).
Proof.
  intros Hd Hm Ht. destruct (grid_basis d mu m Hd Hm Ht) as (L & g & P & E1 & E2 & E3 & Hs & Hp & _ & Hi & HN & HP & _).
  exists g, P. unfold build_grid, poly_inds. rewrite E1. cbn [bind]. repeat (split; auto).
  all: destruct (Hp p) as (v & Hv & HF); auto; pose proof (proj2 (density_max _ _ _ Hm)).
  all: assert (HB : forall x, In x (mrow d g p) -> (-1 <= x <= 1)%R);
    [ assert (Hr : forall i, In i v -> 1 <= i <= m + 1) by (intros i; apply (iso_entries d); eapply index_iso; eauto);
      clear -HF Hr Ht H1; induction HF as [|i x v l Hx HF IH]; intros y []; [subst; apply (a_of_bounds tiny (m + 1) i); auto; [lia|apply Hr; now left]|apply IH; auto; intros; apply Hr; now right]
    | apply HB; unfold mrow; apply in_map_iff; exists k; rewrite zrange_In; auto ].
Qed.

(** The nested sets. *)
Theorem nodes_nested n i : 2 <= n -> tiny_ok tiny n -> 1 <= i <= n -> exists Ai,
  dget (a_chain (sn n) n) i = Ok Ai /\ NoDup Ai /\
  (exists a b ph, m_i i = Ok a /\ m_i (i - 1) = Ok b /\ dget (phi_chain n) i = Ok ph /\ zlen Ai = a - b /\ zlen Ai = zlen ph) /\
  (forall k Ak x, 1 <= k <= n -> dget (a_chain (sn n) n) k = Ok Ak -> In x Ai -> In x Ak -> k = i) /\
  (forall x, (exists k Ak, 1 <= k <= i /\ dget (a_chain (sn n) n) k = Ok Ak /\ In x Ak) <-> In x (sn i)) /\
  (forall x, In x (sn i) <-> is_extremum i x).
Proof.
  intros Hn Ht Hi. exists (a_of PI cos tiny n i). split; [now apply a_chain_get|]. split; [now apply a_of_NoDup|]. split; [|split; [|split]].
  - exists (last_of_level i), (last_of_level (i - 1)), (phi_of i). rewrite !m_i_last, phi_chain_get by lia. repeat split; auto; [now apply a_of_len|]. rewrite phi_of_len by lia. now apply a_of_len.
  - intros k Ak x Hk E Hx Hx'. rewrite a_chain_get in E by auto. injection E as <-. eapply (a_of_disjoint tiny n); eauto.
  - intros x. rewrite s_n_In by (try lia; intros; apply (tiny_mono tiny n); auto; lia). rewrite <- (a_of_union tiny n) by auto. split.
    + intros (k & Ak & Hk & E & Hx). rewrite a_chain_get in E by lia. injection E as <-. eauto.
    + intros (k & Hk & Hx). exists k. eexists. split; [auto|]. split; [apply a_chain_get; lia|auto].
  - intros x. apply s_n_In; [lia|]. intros. apply (tiny_mono tiny n); auto. lia.
Qed.
End Grid.

(** The threshold in the code, 1e-14. *)
Definition tiny_code : R := / IZR (10 ^ 14).
Lemma tiny_code_ok n : 2 <= n <= 48 -> tiny_ok tiny_code n.
Proof.
  intros Hn. unfold tiny_ok, tiny_code. assert (0 < 10 ^ 14) by reflexivity. split; [apply Rinv_0_lt_compat, IZR_lt; auto|].
  apply Rinv_le_contravar; [apply IZR_lt, pow2_pos; lia|]. apply IZR_le. apply Z.le_trans with (2 ^ 46); [apply Z.pow_le_mono_r; lia|]. vm_compute. discriminate.
Qed.
