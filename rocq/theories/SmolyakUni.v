(** C44, first part: the values at the grid determine the coefficients. *)
From Coq Require Import ZArith List Bool Lia ZifyBool Reals Lra Psatz.
From Verif Require Import Base BaseFacts RSum CompleteModel CompleteGeneric LinAlg SmolyakModel SpecSmolyak SmolyakInds SmolyakChains SmolyakNodes SmolyakB SmolyakGridR.
Import ListNotations.
Open Scope Z_scope.

(** ** One dimension *)
Definition clead (n : nat) : R := match n with O => 1%R | S m => (2 ^ m)%R end.
Lemma cheb_PF n : PF n (clead n) (cheb n).
Proof.
  induction n as [| |n IH1 IH2] using pair_ind.
  - cbn. auto.
  - exists 0%R, (fun _ => 1%R). split; [cbn; auto|]. intros. cbn. ring.
  - apply (PF_ext _ _ (fun x => x * (2 * cheb (S n) x) + (-1) * cheb n x)%R); [intros; rewrite cheb_SS; ring|].
    replace (clead (S (S n))) with (2 * clead (S n) + 0)%R by (cbn; ring). apply PF_plus.
    + apply PF_x, PF_scal, IH2.
    + eapply PF_up, PF_up, PF_scal, IH1.
Qed.
Lemma clead_nz n : clead n <> 0%R.
Proof. destruct n; cbn; [lra|]. apply pow_nonzero. lra. Qed.

(** ** The sum over all basis functions below a bound *)
Fixpoint ev (M : Z) (xs : list R) (th : list Z -> R) : R :=
  match xs with
  | [] => th []
  | x :: xs' => zsum M (fun b => cheb (Z.to_nat b) x * ev M xs' (fun b' => th ((b + 1)%Z :: b')))%R
  end.
Lemma ev_ext M xs : forall th th', (forall b, length b = length xs -> th b = th' b) -> ev M xs th = ev M xs th'.
Proof.
  induction xs as [|x xs IH]; cbn; intros th th' H; [now apply H|]. apply zsum_ext. intros b Hb. f_equal. apply IH. intros b' Hb'. apply H. cbn. now rewrite Hb'.
Qed.
Lemma ev_zero M xs : forall th, (forall b, length b = length xs -> th b = 0%R) -> ev M xs th = 0%R.
Proof.
  induction xs as [|x xs IH]; cbn; intros th H; [now apply H|]. apply zsum_zero. intros b Hb. rewrite IH; [ring|]. intros b' Hb'. apply H. cbn. now rewrite Hb'.
Qed.
Lemma ev_sum M P (c : Z -> R) (th : Z -> list Z -> R) xs : ev M xs (fun b => zsum P (fun j => c j * th j b)%R) = zsum P (fun j => c j * ev M xs (th j))%R.
Proof.
  revert th. induction xs as [|x xs IH]; cbn; intros th; auto.
  rewrite (zsum_ext M _ (fun b => zsum P (fun j => cheb (Z.to_nat b) x * (c j * ev M xs (fun b' => th j ((b + 1)%Z :: b')))))%R).
  - rewrite zsum_swap. apply zsum_ext. intros j Hj. rewrite <- zsum_scal. apply zsum_ext. intros; ring.
  - intros b Hb. rewrite (IH (fun j b' => th j ((b + 1)%Z :: b'))). now rewrite <- zsum_scal.
Qed.
Definition delta (b0 b : list Z) : R := if list_eq_dec Z.eq_dec b0 b then 1%R else 0%R.
Lemma ev_delta M xs : forall b0, length b0 = length xs -> Forall (fun i => 1 <= i <= M) b0 -> ev M xs (delta b0) = basis b0 xs.
Proof.
  induction xs as [|x xs IH]; intros [|i b0] HL HF; try discriminate; cbn [ev basis].
  - reflexivity.
  - injection HL as HL. inversion HF; subst. rewrite (zsum_single M _ (i - 1)).
    + f_equal. rewrite <- IH by auto. apply ev_ext. intros b Hb. unfold delta. replace (i - 1 + 1) with i by lia.
      destruct (list_eq_dec Z.eq_dec b0 b), (list_eq_dec Z.eq_dec (i :: b0) (i :: b)); congruence.
    + lia.
    + intros b Hb Hne. rewrite ev_zero; [ring|]. intros b' _. unfold delta. destruct (list_eq_dec Z.eq_dec (i :: b0) ((b + 1)%Z :: b')) as [E|]; [|auto]. injection E as E1 E2. lia.
Qed.

(** ** Sets of levels that contain every smaller index *)
Section Uni.
Variables (A : Z -> list R) (n : Z).
Hypothesis (Hn : 1 <= n).
Definition M := last_of_level n.
(** The one-dimensional systems. *)
Hypothesis H1 : forall K c, 1 <= K <= n -> (forall k x, 1 <= k <= K -> In x (A k) -> zsum (last_of_level K) (fun b => cheb (Z.to_nat b) x * c b)%R = 0%R) ->
  forall b, 0 <= b < last_of_level K -> c b = 0%R.

Definition down_closed (P : list Z -> Prop) : Prop :=
  (forall v, P v -> Forall (fun i => 1 <= i <= n) v) /\ forall v w, P v -> Forall2 (fun a b => 1 <= a <= b) w v -> P w.
Lemma Forall2_refl_ge v : Forall (fun i => 1 <= i <= n) v -> Forall2 (fun a b => 1 <= a <= b) v v.
Proof. induction 1; constructor; auto; lia. Qed.

Theorem uni d : forall (P : list Z -> Prop) th, down_closed P ->
  (forall b, length b = d -> th b <> 0%R -> exists v, P v /\ Forall2 at_level v b) ->
  (forall v xs, P v -> length v = d -> Forall2 (fun i x => In x (A i)) v xs -> ev M xs th = 0%R) ->
  forall b, length b = d -> th b = 0%R.
Proof.
  induction d as [|d IH]; intros P th [HP1 HP2] Hsup Hvan b Hb.
  - destruct b; [|discriminate]. destruct (Req_dec (th []) 0) as [E|E]; auto. destruct (Hsup [] eq_refl E) as (v & Hv & HF). inversion HF; subst. exact (Hvan [] [] Hv eq_refl (Forall2_nil _)).
  - assert (Main : forall j : nat, Z.of_nat j <= n -> forall k b1 b', n - Z.of_nat j < k -> at_level k b1 -> length b' = d -> th (b1 :: b') = 0%R).
    { induction j as [|j IHj]; intros Hj k b1 b' Hk Hl Hb'.
      - destruct (Req_dec (th (b1 :: b')) 0) as [E|E]; auto. destruct (Hsup (b1 :: b')) as (v & Hv & HF); [cbn; lia|auto|]. inversion HF; subst.
        apply HP1 in Hv. inversion Hv; subst. assert (x = k) by (eapply at_level_unique; eauto). lia.
      - destruct (Z_lt_le_dec (n - Z.of_nat j) k) as [Hlt|Hge]; [apply (IHj ltac:(lia) k); auto|].
        set (K := n - Z.of_nat j) in *. assert (k = K) as -> by lia. assert (HK : 1 <= K <= n) by lia.
        apply (IH (fun v' => P (K :: v')) (fun b' => th (b1 :: b'))); auto.
        + split.
          * intros v Hv. apply HP1 in Hv. now inversion Hv.
          * intros v w Hv HF. apply (HP2 (K :: v)); auto. constructor; auto. lia.
        + intros c Hc Hnz. destruct (Hsup (b1 :: c)) as (v & Hv & HF); [cbn; lia|auto|]. inversion HF as [|k' ? v' ? Hl' HF']; subst.
          assert (k' = K) as -> by (eapply at_level_unique; eauto). eauto.
        + intros v' xs HPv Hlen HFx.
          set (g := fun b => ev M xs (fun b' => th ((b + 1)%Z :: b'))).
          assert (Hlenx : length xs = d) by (apply Forall2_length in HFx; lia).
          assert (Hg : forall b, 0 <= b < last_of_level K -> g b = 0%R).
          { apply H1; auto. intros k x Hk' Hx.
            assert (Hz : ev M (x :: xs) th = 0%R).
            { apply (Hvan (k :: v')); [|cbn; lia|constructor; auto]. apply (HP2 (K :: v')); auto. constructor; [lia|]. apply Forall2_refl_ge. apply HP1 in HPv. now inversion HPv. }
            cbn [ev] in Hz. pose proof (last_mono K n ltac:(lia)) as HMn. fold M in HMn. assert (0 <= last_of_level K) by (pose proof (last_mono 0 K ltac:(lia)) as H0; exact H0).
            replace M with (last_of_level K + (M - last_of_level K)) in Hz at 1 by lia. rewrite zsum_split in Hz by lia.
            rewrite (zsum_zero (M - last_of_level K)) in Hz.
            - rewrite Rplus_0_r in Hz. exact Hz.
            - intros i Hi. rewrite ev_zero; [ring|]. intros c Hc. destruct (Req_dec (th (last_of_level K + i + 1 :: c)) 0) as [E|E]; auto. exfalso. apply E.
              destruct (Hsup (last_of_level K + i + 1 :: c)) as (v & Hv & HF); [cbn; lia|auto|]. inversion HF as [|k2 ? v2 ? Hl2 HF2]; subst.
              apply (IHj ltac:(lia) k2); auto; [|lia]. destruct (Z_lt_le_dec K k2) as [|Hle]; auto. exfalso. destruct Hl2 as [_ Hl2]. pose proof (last_mono k2 K Hle). lia. }
          pose proof (Hg (b1 - 1)) as Hgb. unfold g in Hgb. replace (b1 - 1 + 1) with b1 in Hgb by lia. apply Hgb.
          destruct Hl as [Hl1 Hl2]. pose proof (last_mono 0 (K - 1) ltac:(lia)) as H0. change (last_of_level 0) with 0 in H0. lia. }
    destruct b as [|b1 b']; [discriminate|]. injection Hb as Hb. destruct (Req_dec (th (b1 :: b')) 0) as [E|E]; auto.
    destruct (Hsup (b1 :: b')) as (v & Hv & HF); [cbn; lia|auto|]. inversion HF as [|k ? v' ? Hl HF']; subst. apply HP1 in Hv. inversion Hv; subst.
    apply (Main (Z.to_nat n)) with (k := k); auto; lia.
Qed.
End Uni.

(** ** The Smolyak sets *)
Lemma index_down d mu m : density_ok d mu m -> down_closed (m + 1) (smolyak_index d mu m).
Proof.
  intros Hm. split.
  - intros v Hv. apply Forall_forall. intros i. apply (iso_entries d). eapply index_iso; eauto.
  - assert (HI : forall v w, iso_index d m v -> Forall2 (fun a b => 1 <= a <= b) w v -> iso_index d m w).
    { intros v w (HL & HF & HT) H2. split; [apply Forall2_length in H2; unfold zlen in *; lia|]. clear HL. split.
      - clear -H2. induction H2; constructor; auto; lia.
      - assert (total w <= total v); [|lia]. clear -H2. induction H2; cbn; [lia|]. unfold total in *. lia. }
    intros v w Hv H2. destruct mu as [k|l]; cbn in *; [eauto|]. destruct Hv as [Hv HF]. split; [eauto|]. clear -HF H2. revert l HF. induction H2 as [|? ? ? ? ? ? IHF]; intros l0 HF; inversion HF; subst; constructor; auto; lia.
Qed.
Section Grid.
Variables (tiny : R) (d : Z) (mu : mu_t) (m : Z).
Hypothesis (Hd : 2 <= d) (Hm : density_ok d mu m) (Ht : tiny_ok tiny (m + 1)).
Notation A := (@a_of R NumR PI cos tiny (m + 1)).
Lemma one_dim K c : 1 <= K <= m + 1 -> (forall k x, 1 <= k <= K -> In x (A k) -> zsum (last_of_level K) (fun b => cheb (Z.to_nat b) x * c b)%R = 0%R) ->
  forall b, 0 <= b < last_of_level K -> c b = 0%R.
Proof.
  intros HK H. assert (1 <= m) by (eapply density_max; eauto).
  set (rs := if K =? 1 then [0%R] else map (extremum K) (zrange (2 ^ (K - 1) + 1))).
  apply (family_zero cheb clead cheb_PF clead_nz (last_of_level K) c rs).
  - pose proof (last_mono 0 K ltac:(lia)) as HH0. exact HH0.
  - unfold rs. destruct (Z.eqb_spec K 1); [repeat constructor; auto|].
    assert (G : forall l, (forall j, In j l -> 0 <= j <= 2 ^ (K - 1)) -> NoDup l -> NoDup (map (extremum K) l)).
    { induction l as [|x l IH]; intros Hr HN; cbn; constructor; inversion HN; subst.
      - intros Hx. apply in_map_iff in Hx as (y & E & Hy). apply extremum_inj in E; [|lia|apply Hr; now right|apply Hr; now left]. congruence.
      - apply IH; auto. intros; apply Hr; now right. }
    apply G; [intros j Hj; apply zrange_In in Hj; lia|]. apply zrange_NoDup.
  - unfold rs. destruct (Z.eqb_spec K 1) as [->|]; [reflexivity|]. rewrite last_ge2 by lia. unfold zlen. rewrite map_length, zrange_length. pose proof (pow2_pos (K - 1) ltac:(lia)). lia.
  - intros r Hr. assert (Hx : is_extremum K r).
    { unfold rs in Hr. unfold is_extremum. destruct (K =? 1); [destruct Hr as [<-|[]]; auto|]. apply in_map_iff in Hr as (j & <- & Hj). apply zrange_In in Hj. exists j. split; auto. lia. }
    apply (a_of_union tiny (m + 1)) in Hx as (k & Hk & Hx); auto; [|lia]. eapply H; eauto.
Qed.
Theorem coefficients_unique g P (x : Z -> R) :
  ashape g = [zlen P; d] ->
  (forall v x, smolyak_index d mu m v -> Forall2 (fun i t => In t (A i)) v x -> exists p, 0 <= p < zlen P /\ mrow d g p = x) ->
  NoDup P -> (forall b, In b P <-> exists v, smolyak_index d mu m v /\ Forall2 at_level v b) -> indices_ok d m P ->
  (forall p, 0 <= p < zlen P -> zsum (zlen P) (fun j => basis (nth (Z.to_nat j) P []) (mrow d g p) * x j)%R = 0%R) ->
  forall j, 0 <= j < zlen P -> x j = 0%R.
Proof.
  intros Hs Hpts HN HP Hok Hz j Hj. assert (1 <= m) by (eapply density_max; eauto).
  set (th := fun b => zsum (zlen P) (fun j => x j * delta (nth (Z.to_nat j) P []) b)%R).
  assert (Hnth : forall k, 0 <= k < zlen P -> In (nth (Z.to_nat k) P []) P) by (intros; apply nth_In; unfold zlen in *; lia).
  assert (Hlen : forall k, 0 <= k < zlen P -> length (nth (Z.to_nat k) P []) = Z.to_nat d /\ Forall (fun i => 1 <= i <= M (m + 1)) (nth (Z.to_nat k) P [])).
  { intros k Hk. unfold indices_ok in Hok. rewrite Forall_forall in Hok. destruct (Hok _ (Hnth k Hk)) as [HL HF]. split; [unfold zlen in HL; lia|]. unfold M. rewrite last_ge2 by lia. now replace (m + 1 - 1) with m by lia. }
  assert (Hth : th (nth (Z.to_nat j) P []) = 0%R).
  { apply (uni A (m + 1) ltac:(lia) one_dim (Z.to_nat d) (smolyak_index d mu m)).
    - now apply index_down.
    - intros b Hb Hnz. apply HP. destruct (in_dec (list_eq_dec Z.eq_dec) b P) as [|Hni]; auto. exfalso. apply Hnz. unfold th. apply zsum_zero. intros k Hk. unfold delta.
      destruct (list_eq_dec Z.eq_dec (nth (Z.to_nat k) P []) b) as [E|]; [|ring]. exfalso. apply Hni. rewrite <- E. auto.
    - intros v xs Hv Hl HF. destruct (Hpts v xs Hv HF) as (p & Hp & E). assert (Hlx : length xs = Z.to_nat d) by (apply Forall2_length in HF; lia).
      unfold th. rewrite (ev_sum (M (m + 1)) (zlen P) x (fun j => delta (nth (Z.to_nat j) P []))). rewrite <- (Hz p Hp). apply zsum_ext. intros k Hk.
      destruct (Hlen k Hk). rewrite ev_delta by (auto; lia). rewrite E. ring.
    - now apply Hlen. }
  rewrite <- Hth. unfold th. rewrite (zsum_single _ _ j); auto.
  - unfold delta. destruct (list_eq_dec Z.eq_dec (nth (Z.to_nat j) P []) (nth (Z.to_nat j) P [])); [ring|congruence].
  - intros k Hk Hne. unfold delta. destruct (list_eq_dec Z.eq_dec (nth (Z.to_nat k) P []) (nth (Z.to_nat j) P [])) as [E|]; [|ring].
    rewrite (NoDup_nth _ []) in HN. apply HN in E; unfold zlen in *; lia.
Qed.
End Grid.
