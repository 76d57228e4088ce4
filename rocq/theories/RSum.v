(** Finite sums of reals and tensor sums (nested sums over multi-indices). *)
From Coq Require Import ZArith List Bool Reals Lia Lra Psatz.
From Verif Require Import Base BaseFacts.
Import ListNotations.
Open Scope R_scope.

(** Sum of [f i] for [0 <= i < n]. *)
Fixpoint nsum (f : Z -> R) (n : nat) : R :=
  match n with O => 0 | S m => nsum f m + f (Z.of_nat m) end.
Definition zsum (n : Z) (f : Z -> R) : R := nsum f (Z.to_nat n).

Lemma zsum_0 n f : (n <= 0)%Z -> zsum n f = 0.
Proof. intros. unfold zsum. replace (Z.to_nat n) with O by lia. reflexivity. Qed.
Lemma zsum_S n f : (0 <= n)%Z -> zsum (n + 1) f = zsum n f + f n.
Proof.
  intros. unfold zsum. replace (Z.to_nat (n + 1)) with (S (Z.to_nat n)) by lia. cbn.
  now rewrite Z2Nat.id.
Qed.
Lemma zsum_last n f : (0 < n)%Z -> zsum n f = zsum (n - 1) f + f (n - 1)%Z.
Proof. intros. rewrite <- zsum_S by lia. f_equal. lia. Qed.

Lemma zsum_ind (P : Z -> Prop) : P 0%Z -> (forall n, (0 <= n)%Z -> P n -> P (n + 1)%Z) -> forall n, (0 <= n)%Z -> P n.
Proof.
  intros H0 HS n Hn. apply natlike_ind; auto.
Qed.

Lemma nsum_ext f g n : (forall i, (0 <= i < Z.of_nat n)%Z -> f i = g i) -> nsum f n = nsum g n.
Proof. induction n; cbn; intros H; auto. rewrite IHn, H; auto; try lia. intros; apply H; lia. Qed.
Lemma zsum_ext n f g : (forall i, (0 <= i < n)%Z -> f i = g i) -> zsum n f = zsum n g.
Proof. intros H. apply nsum_ext. intros; apply H; lia. Qed.

Lemma nsum_plus f g n : nsum (fun i => f i + g i) n = nsum f n + nsum g n.
Proof. induction n; cbn; [ring|rewrite IHn; ring]. Qed.
Lemma zsum_plus n f g : zsum n (fun i => f i + g i) = zsum n f + zsum n g.
Proof. apply nsum_plus. Qed.
Lemma nsum_scal c f n : nsum (fun i => c * f i) n = c * nsum f n.
Proof. induction n; cbn; [ring|rewrite IHn; ring]. Qed.
Lemma zsum_scal n c f : zsum n (fun i => c * f i) = c * zsum n f.
Proof. apply nsum_scal. Qed.
Lemma zsum_scal_r n c f : zsum n (fun i => f i * c) = zsum n f * c.
Proof. rewrite Rmult_comm, <- zsum_scal. apply zsum_ext. intros; ring. Qed.
Lemma zsum_opp n f : zsum n (fun i => - f i) = - zsum n f.
Proof. replace (- zsum n f) with ((-1) * zsum n f) by ring. rewrite <- zsum_scal. apply zsum_ext; intros; ring. Qed.
Lemma zsum_minus n f g : zsum n (fun i => f i - g i) = zsum n f - zsum n g.
Proof. unfold Rminus. rewrite zsum_plus, zsum_opp. reflexivity. Qed.
Lemma zsum_zero n f : (forall i, (0 <= i < n)%Z -> f i = 0) -> zsum n f = 0.
Proof.
  intros H. rewrite (zsum_ext n f (fun _ => 0)) by auto.
  unfold zsum. induction (Z.to_nat n); cbn; lra.
Qed.

Lemma nsum_swap (f : Z -> Z -> R) n m :
  nsum (fun i => nsum (fun j => f i j) m) n = nsum (fun j => nsum (fun i => f i j) n) m.
Proof.
  induction n; cbn.
  - induction m; cbn; auto. rewrite <- IHm. ring.
  - rewrite IHn, <- nsum_plus. apply nsum_ext. reflexivity.
Qed.
Lemma zsum_swap (f : Z -> Z -> R) n m :
  zsum n (fun i => zsum m (fun j => f i j)) = zsum m (fun j => zsum n (fun i => f i j)).
Proof. apply nsum_swap. Qed.

Lemma nsum_nonneg f n : (forall i, (0 <= i < Z.of_nat n)%Z -> 0 <= f i) -> 0 <= nsum f n.
Proof.
  induction n; cbn; intros H; [lra|]. assert (0 <= nsum f n) by (apply IHn; intros; apply H; lia).
  assert (0 <= f (Z.of_nat n)) by (apply H; lia). lra.
Qed.
Lemma zsum_nonneg n f : (forall i, (0 <= i < n)%Z -> 0 <= f i) -> 0 <= zsum n f.
Proof. intros H. apply nsum_nonneg. intros; apply H; lia. Qed.
Lemma zsum_le n f g : (forall i, (0 <= i < n)%Z -> f i <= g i) -> zsum n f <= zsum n g.
Proof.
  intros H. assert (0 <= zsum n (fun i => g i - f i)).
  { apply zsum_nonneg. intros i Hi. specialize (H i Hi). lra. }
  rewrite zsum_minus in H0. lra.
Qed.

(** Split, shift *)
Lemma zsum_split n m f : (0 <= n)%Z -> (0 <= m)%Z -> zsum (n + m) f = zsum n f + zsum m (fun i => f (n + i)%Z).
Proof.
  intros Hn Hm. revert m Hm. apply zsum_ind.
  - rewrite Z.add_0_r, (zsum_0 0) by lia. ring.
  - intros m Hm IH. rewrite Z.add_assoc, !zsum_S by lia. rewrite IH. ring.
Qed.
Lemma zsum_first n f : (0 < n)%Z -> zsum n f = f 0%Z + zsum (n - 1) (fun i => f (i + 1)%Z).
Proof.
  intros Hn. replace n with (1 + (n - 1))%Z at 1 by lia. rewrite zsum_split by lia.
  change (zsum 1 f) with (0 + f 0%Z). rewrite Rplus_0_l. f_equal. apply zsum_ext. intros; f_equal; lia.
Qed.

(** One non-zero term *)
Lemma zsum_single n f k : (0 <= k < n)%Z -> (forall i, (0 <= i < n)%Z -> i <> k -> f i = 0) -> zsum n f = f k.
Proof.
  intros Hk H. replace n with (k + (n - k))%Z by lia. rewrite zsum_split by lia.
  rewrite (zsum_zero k) by (intros; apply H; lia). rewrite zsum_first by lia.
  rewrite (zsum_zero (n - k - 1)) by (intros; apply H; lia). rewrite Z.add_0_r. ring.
Qed.
(** Only the terms of a window [c, c+m) are non-zero *)
Lemma zsum_window n f c m : (0 <= c)%Z -> (0 <= m)%Z -> (c + m <= n)%Z ->
  (forall i, (0 <= i < n)%Z -> (i < c \/ c + m <= i)%Z -> f i = 0) ->
  zsum n f = zsum m (fun j => f (c + j)%Z).
Proof.
  intros Hc Hm Hn H. replace n with (c + (m + (n - c - m)))%Z by lia.
  rewrite zsum_split by lia. rewrite (zsum_zero c) by (intros; apply H; lia).
  rewrite zsum_split by lia. rewrite (zsum_zero (n - c - m)) by (intros; apply H; lia). ring.
Qed.

Lemma zsum_1 f : zsum 1 f = f 0%Z.
Proof. change (zsum 1 f) with (0 + f 0%Z). ring. Qed.
Lemma zsum_2 f : zsum 2 f = f 0%Z + f 1%Z.
Proof. change (zsum 2 f) with (0 + f 0%Z + f 1%Z). ring. Qed.
Lemma zsum_4 f : zsum 4 f = f 0%Z + f 1%Z + f 2%Z + f 3%Z.
Proof. change (zsum 4 f) with (0 + f 0%Z + f 1%Z + f 2%Z + f 3%Z). ring. Qed.
Lemma zsum_const n c : (0 <= n)%Z -> zsum n (fun _ => c) = IZR n * c.
Proof.
  revert n. apply zsum_ind.
  - rewrite zsum_0 by lia. ring.
  - intros n Hn IH. rewrite zsum_S, IH, plus_IZR by lia. ring.
Qed.

(** ** Tensor sums: [NS [(n1,w1); ..; (nd,wd)] c] = sum over i1<n1, .., id<nd of
    w1 i1 * .. * wd id * c [i1; ..; id]. *)
Fixpoint NS (l : list (Z * (Z -> R))) (c : list Z -> R) : R :=
  match l with
  | [] => c []
  | (n, w) :: r => zsum n (fun i => w i * NS r (fun idx => c (i :: idx)))
  end.

Lemma NS_ext l : forall c c', (forall idx, inb (map fst l) idx = true -> c idx = c' idx) -> NS l c = NS l c'.
Proof.
  induction l as [|[n w] l IH]; cbn; intros c c' H. now apply H.
  apply zsum_ext. intros i Hi. f_equal. apply IH. intros idx Hidx. apply H.
  rewrite Hidx, andb_true_r. apply andb_true_iff; split; [apply Z.leb_le|apply Z.ltb_lt]; lia.
Qed.

Lemma NS_w_ext l l' : Forall2 (fun p q => fst p = fst q /\ forall i, (0 <= i < fst p)%Z -> snd p i = snd q i) l l' ->
  forall c, NS l c = NS l' c.
Proof.
  intros H. induction H as [|[n w] [n' w'] l l' [E1 E2] H IH]; cbn; intros c; auto.
  cbn in E1, E2. subst n'. apply zsum_ext. intros i Hi. rewrite E2, IH by auto. reflexivity.
Qed.

Lemma NS_plus l : forall c c', NS l (fun i => c i + c' i) = NS l c + NS l c'.
Proof.
  induction l as [|[n w] l IH]; cbn; intros; auto.
  rewrite <- zsum_plus. apply zsum_ext. intros. rewrite IH. ring.
Qed.
Lemma NS_scal l : forall s c, NS l (fun i => s * c i) = s * NS l c.
Proof.
  induction l as [|[n w] l IH]; cbn; intros; auto.
  rewrite <- zsum_scal. apply zsum_ext. intros. rewrite IH. ring.
Qed.
Lemma NS_zsum l n (f : Z -> list Z -> R) : NS l (fun idx => zsum n (fun i => f i idx)) = zsum n (fun i => NS l (f i)).
Proof.
  unfold zsum. induction (Z.to_nat n); cbn.
  - rewrite (NS_ext l _ (fun _ => 0 * 0)) by (intros; ring). rewrite NS_scal. ring.
  - rewrite NS_plus, IHn0. reflexivity.
Qed.

Lemma NS_app l1 : forall l2 c, NS (l1 ++ l2) c = NS l1 (fun i1 => NS l2 (fun i2 => c (i1 ++ i2))).
Proof.
  induction l1 as [|[n w] l1 IH]; cbn; intros; auto.
  apply zsum_ext. intros. rewrite IH. reflexivity.
Qed.

Lemma NS_zero_w l c n w : (forall i, (0 <= i < n)%Z -> w i = 0) -> In (n, w) l -> NS l c = 0.
Proof.
  intros Hw. revert c; induction l as [|[n' w'] l IH]; cbn; intros c H; [tauto|].
  destruct H as [H|H].
  - inversion H; subst. apply zsum_zero. intros i Hi. rewrite Hw by auto. ring.
  - apply zsum_zero. intros i Hi. rewrite IH by auto. ring.
Qed.

(** Product of weights *)
Fixpoint wprod (l : list (Z * (Z -> R))) (idx : list Z) : R :=
  match l, idx with
  | (_, w) :: r, i :: idx' => w i * wprod r idx'
  | _, _ => 1
  end.

Lemma NS_single l : forall c k, inb (map fst l) k = true ->
  Forall2 (fun p ki => forall i, (0 <= i < fst p)%Z -> i <> ki -> snd p i = 0) l k ->
  NS l c = wprod l k * c k.
Proof.
  induction l as [|[n w] l IH]; cbn; intros c k Hk H; inversion H; subst; cbn in *.
  - ring.
  - apply andb_true_iff in Hk as [Hk1 Hk2]. apply andb_true_iff in Hk1 as [Hk0 Hk1].
    apply Z.leb_le in Hk0. apply Z.ltb_lt in Hk1.
    rewrite (zsum_single n _ y) by (auto; intros i Hi Hne; rewrite H2 by auto; ring).
    rewrite (IH _ l') by auto. ring.
Qed.

(** Convexity *)
Lemma NS_bounds l : forall c m M,
  Forall (fun p => (forall i, (0 <= i < fst p)%Z -> 0 <= snd p i) /\ zsum (fst p) (snd p) = 1) l ->
  (forall idx, inb (map fst l) idx = true -> m <= c idx <= M) -> m <= NS l c <= M.
Proof.
  induction l as [|[n w] l IH]; cbn; intros c m M H Hc. now apply Hc.
  inversion H as [|x y [H1 H2] H3]; subst; cbn in *.
  assert (G : forall i, (0 <= i < n)%Z -> m <= NS l (fun idx => c (i :: idx)) <= M).
  { intros i Hi. apply IH; auto. intros idx Hidx. apply Hc. rewrite Hidx, andb_true_r.
    apply andb_true_iff; split; [apply Z.leb_le|apply Z.ltb_lt]; lia. }
  split.
  - replace m with (zsum n (fun i => w i * m)) by (rewrite zsum_scal_r; rewrite H2; ring).
    apply zsum_le. intros i Hi. apply Rmult_le_compat_l; auto. apply G; auto.
  - replace M with (zsum n (fun i => w i * M)) by (rewrite zsum_scal_r; rewrite H2; ring).
    apply zsum_le. intros i Hi. apply Rmult_le_compat_l; auto. apply G; auto.
Qed.
