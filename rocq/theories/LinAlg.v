(** Square systems over the reals: a matrix with trivial kernel is onto. *)
From Coq Require Import ZArith List Bool Lia ZifyBool Reals Lra Psatz.
From Verif Require Import Base BaseFacts RSum.
Import ListNotations.
Open Scope Z_scope.

Definition skip (k j : Z) : Z := if j <? k then j else j + 1.
Lemma zsum_skip k : forall n f, 0 <= k <= n -> zsum (n + 1) f = (f k + zsum n (fun j => f (skip k j)))%R.
Proof.
  intros n f Hk. assert (H : forall m, 0 <= m -> forall f, zsum (k + m + 1) f = (f k + zsum (k + m) (fun j => f (skip k j)))%R).
  { apply (zsum_ind (fun m => forall f, zsum (k + m + 1) f = (f k + zsum (k + m) (fun j => f (skip k j)))%R)).
    - intros g. rewrite Z.add_0_r, zsum_S by lia. rewrite (zsum_ext k g (fun j => g (skip k j))); [ring|]. intros i Hi. unfold skip. destruct (i <? k) eqn:E; [auto|lia].
    - intros m Hm IH g. replace (k + (m + 1)) with (k + m + 1) by lia. rewrite zsum_S by lia. rewrite (IH g). rewrite (zsum_S (k + m)) by lia.
      unfold skip at 3. destruct (k + m <? k) eqn:E; [lia|]. ring. }
  specialize (H (n - k) ltac:(lia) f). replace (k + (n - k)) with n in H by lia. exact H.
Qed.

Lemma dependent : forall (n : nat) (V : Z -> Z -> R), exists c : Z -> R, (exists j, 0 <= j <= Z.of_nat n /\ c j <> 0%R) /\
  forall i, 0 <= i < Z.of_nat n -> zsum (Z.of_nat n + 1) (fun j => c j * V j i)%R = 0%R.
Proof.
  induction n as [|n IH]; intros V.
  - exists (fun _ => 1%R). split; [exists 0; split; [lia|lra]|]. intros; lia.
  - rewrite Nat2Z.inj_succ, <- Z.add_1_r. set (N := Z.of_nat n) in *. assert (HN : 0 <= N) by (unfold N; lia).
    assert (Hdec : (forall j, 0 <= j <= N + 1 -> V j N = 0%R) \/ exists j, 0 <= j <= N + 1 /\ V j N <> 0%R).
    { assert (G : forall k, 0 <= k -> (forall j, 0 <= j < k -> V j N = 0%R) \/ exists j, 0 <= j < k /\ V j N <> 0%R).
      { apply (zsum_ind (fun k => (forall j, 0 <= j < k -> V j N = 0%R) \/ exists j, 0 <= j < k /\ V j N <> 0%R)); [left; intros; lia|]. intros k Hk [H|(j & Hj & H)].
        - destruct (Req_dec (V k N) 0) as [E|E]; [left; intros j Hj; destruct (Z.eq_dec j k) as [->|]; auto; apply H; lia|right; exists k; split; auto; lia].
        - right. exists j. split; auto. lia. }
      destruct (G (N + 2) ltac:(lia)) as [H|(j & Hj & H)]; [left; intros; apply H; lia|right; exists j; split; auto; lia]. }
    destruct Hdec as [Hz|(k & Hk & Hnz)].
    + destruct (IH V) as (c & (j & Hj & Hc) & Hs). exists (fun j => if j <=? N then c j else 0%R). split.
      * exists j. split; [lia|]. destruct (j <=? N) eqn:E; [auto|lia].
      * intros i Hi. destruct (Z.eq_dec i N) as [->|].
        { apply zsum_zero. intros j' Hj'. rewrite Hz by lia. ring. }
        { rewrite zsum_S by lia. destruct (N + 1 <=? N) eqn:E; [lia|]. rewrite <- (Hs i ltac:(lia)) at 2. rewrite Rmult_0_l, Rplus_0_r.
          apply zsum_ext. intros j' Hj'. destruct (j' <=? N) eqn:E'; [auto|lia]. }
    + destruct (IH (fun j i => (V (skip k j) i - V (skip k j) N / V k N * V k i)%R)) as (c & (j0 & Hj0 & Hc) & Hs).
      set (C := fun j => if j =? k then (- zsum (N + 1) (fun j => c j * (V (skip k j) N / V k N)))%R else if j <? k then c j else c (j - 1)).
      assert (HC : forall j, 0 <= j -> C (skip k j) = c j).
      { intros j Hj. unfold C, skip. destruct (j <? k) eqn:E.
        - destruct (j =? k) eqn:E1; [lia|]. now rewrite E.
        - destruct (j + 1 =? k) eqn:E1; [lia|]. destruct (j + 1 <? k) eqn:E2; [lia|]. f_equal. lia. }
      exists C. split.
      * exists (skip k j0). split; [unfold skip; destruct (j0 <? k); lia|]. rewrite HC by lia. auto.
      * intros i Hi. rewrite (zsum_skip k) by lia. rewrite (zsum_ext (N + 1) _ (fun j => c j * V (skip k j) i)%R) by (intros j Hj; rewrite HC by lia; auto).
        assert (HCk : C k = (- zsum (N + 1) (fun j => c j * (V (skip k j) N / V k N)))%R) by (unfold C; now rewrite Z.eqb_refl). rewrite HCk.
        rewrite <- zsum_opp, <- zsum_scal_r, <- zsum_plus. destruct (Z.eq_dec i N) as [->|].
        { apply zsum_zero. intros j Hj. field. auto. }
        { rewrite <- (Hs i ltac:(lia)). apply zsum_ext. intros j Hj. ring. }
Qed.

Definition trivial_kernel (n : Z) (A : Z -> Z -> R) : Prop :=
  forall x : Z -> R, (forall i, 0 <= i < n -> zsum n (fun j => A i j * x j)%R = 0%R) -> forall j, 0 <= j < n -> x j = 0%R.
Lemma onto n A : 0 <= n -> trivial_kernel n A -> forall b : Z -> R, exists x, forall i, 0 <= i < n -> zsum n (fun j => A i j * x j)%R = b i.
Proof.
  intros Hn HA b. destruct (dependent (Z.to_nat n) (fun j i => if j <? n then A i j else b i)) as (c & (j & Hj & Hc) & Hs). rewrite Z2Nat.id in * by lia.
  assert (Hs' : forall i, 0 <= i < n -> (zsum n (fun j => A i j * c j) + c n * b i)%R = 0%R).
  { intros i Hi. specialize (Hs i Hi). rewrite zsum_S in Hs by lia. destruct (n <? n) eqn:E; [lia|]. rewrite <- Hs. f_equal. apply zsum_ext. intros k Hk. destruct (k <? n) eqn:E'; [ring|lia]. }
  assert (Hcn : c n <> 0%R).
  { intros E. destruct (Z.eq_dec j n) as [->|]; [auto|]. apply Hc. apply HA; [|lia]. intros i Hi. specialize (Hs' i Hi). rewrite E in Hs'. lra. }
  exists (fun k => (- c k / c n)%R). intros i Hi. specialize (Hs' i Hi).
  rewrite (zsum_ext n _ (fun k => (- / c n) * (A i k * c k))%R) by (intros; field; auto). rewrite zsum_scal.
  replace (zsum n (fun k => A i k * c k)%R) with (- (c n * b i))%R by lra. field. auto.
Qed.

(** ** Two factors of a matrix with trivial kernel *)
Section Factors.
Variables (n : Z) (L U B : Z -> Z -> R).
Hypothesis (Hn : 0 <= n) (HB : trivial_kernel n B).
Hypothesis (HLU : forall i j, 0 <= i < n -> 0 <= j < n -> zsum n (fun k => L i k * U k j)%R = B i j).
Lemma product_apply x i : 0 <= i < n -> zsum n (fun k => L i k * zsum n (fun j => U k j * x j))%R = zsum n (fun j => B i j * x j)%R.
Proof.
  intros Hi. rewrite (zsum_ext n _ (fun k => zsum n (fun j => L i k * (U k j * x j)))%R) by (intros; now rewrite zsum_scal).
  rewrite zsum_swap. apply zsum_ext. intros j Hj. rewrite <- HLU by auto. rewrite <- zsum_scal_r. apply zsum_ext. intros; ring.
Qed.
Lemma right_kernel : trivial_kernel n U.
Proof.
  intros x Hx. apply HB. intros i Hi. rewrite <- product_apply by auto. apply zsum_zero. intros k Hk. rewrite Hx by auto. ring.
Qed.
Lemma left_kernel : trivial_kernel n L.
Proof.
  intros y Hy. destruct (onto n U Hn right_kernel y) as (x & Hx).
  assert (Hxz : forall j, 0 <= j < n -> x j = 0%R).
  { apply HB. intros i Hi. rewrite <- product_apply by auto. rewrite <- (Hy i Hi). apply zsum_ext. intros k Hk. now rewrite Hx. }
  intros j Hj. rewrite <- Hx by auto. apply zsum_zero. intros k Hk. rewrite Hxz by auto. ring.
Qed.
End Factors.

(** ** Polynomials: n+1 roots *)
Fixpoint PF (n : nat) (a : R) (f : R -> R) : Prop :=
  match n with
  | O => forall x, f x = a
  | S m => exists c g, PF m a g /\ forall x, f x = (c + x * g x)%R
  end.
Lemma PF_ext n : forall a f g, (forall x, f x = g x) -> PF n a f -> PF n a g.
Proof. induction n as [|n IH]; cbn; intros a f g E H; [intros; now rewrite <- E|]. destruct H as (c & h & Hh & Hf). exists c, h. split; auto. intros; now rewrite <- E. Qed.
Lemma PF_plus n : forall a b f g, PF n a f -> PF n b g -> PF n (a + b) (fun x => f x + g x)%R.
Proof.
  induction n as [|n IH]; cbn; intros a b f g Hf Hg; [intros; now rewrite Hf, Hg|].
  destruct Hf as (c & f' & Hf' & Ef), Hg as (e & g' & Hg' & Eg). exists (c + e)%R, (fun x => f' x + g' x)%R. split; auto. intros. rewrite Ef, Eg. ring.
Qed.
Lemma PF_scal n : forall k a f, PF n a f -> PF n (k * a) (fun x => k * f x)%R.
Proof.
  induction n as [|n IH]; cbn; intros k a f Hf; [intros; now rewrite Hf|]. destruct Hf as (c & f' & Hf' & Ef). exists (k * c)%R, (fun x => k * f' x)%R. split; auto. intros. rewrite Ef. ring.
Qed.
Lemma PF_up n : forall a f, PF n a f -> PF (S n) 0 f.
Proof.
  induction n as [|n IH]; intros a f Hf.
  - exists a, (fun _ => 0%R). split; [cbn; auto|]. intros. cbn in Hf. rewrite Hf. ring.
  - destruct Hf as (c & g & Hg & Ef). exists c, g. split; auto. eapply IH; eauto.
Qed.
Lemma PF_x n a f : PF n a f -> PF (S n) a (fun x => x * f x)%R.
Proof. intros H. exists 0%R, f. split; auto. intros; ring. Qed.
Lemma PF_div n : forall a f r, PF (S n) a f -> exists q, PF n a q /\ forall x, f x = (f r + (x - r) * q x)%R.
Proof.
  induction n as [|n IH]; intros a f r (c & g & Hg & Ef).
  - exists g. split; auto. intros x. rewrite !Ef. cbn in Hg. rewrite !Hg. ring.
  - destruct (IH a g r Hg) as (h & Hh & Eg). exists (fun x => g x + r * h x)%R. split.
    + replace a with (a + 0)%R by ring. apply PF_plus; auto. eapply PF_up. apply (PF_scal n r a h Hh).
    + intros x. rewrite !Ef. rewrite (Eg x). ring.
Qed.
Lemma PF_roots n : forall a f rs, PF n a f -> NoDup rs -> (length rs = S n)%nat -> (forall r, In r rs -> f r = 0%R) -> a = 0%R.
Proof.
  induction n as [|n IH]; intros a f rs Hf HN HL Hr.
  - destruct rs as [|r rs]; [discriminate|]. rewrite <- (Hr r) by now left. symmetry. apply Hf.
  - destruct rs as [|r rs]; [discriminate|]. inversion HN; subst. destruct (PF_div n a f r Hf) as (q & Hq & E). apply (IH a q rs); auto.
    intros x Hx. pose proof (E x) as Ex. rewrite (Hr x (or_intror Hx)), (Hr r (or_introl eq_refl)) in Ex. assert (x - r <> 0)%R by (intros C; apply H1; replace r with x by lra; auto).
    apply (Rmult_eq_reg_l (x - r)); auto. lra.
Qed.
Lemma NoDup_firstn {A} (l : list A) : forall k, NoDup l -> NoDup (firstn k l).
Proof.
  intros k H. rewrite <- (firstn_skipn k l) in H. clear -H. induction (firstn k l); [constructor|]. cbn in H. inversion H; subst. constructor; auto. intros Hi. apply H2. apply in_or_app. auto.
Qed.
(** A family with the n-th member of degree n. *)
Lemma family_zero (p : nat -> R -> R) (lead : nat -> R) : (forall n, PF n (lead n) (p n)) -> (forall n, lead n <> 0%R) ->
  forall n c rs, 0 <= n -> NoDup rs -> n <= zlen rs -> (forall r, In r rs -> zsum n (fun b => p (Z.to_nat b) r * c b)%R = 0%R) -> forall b, 0 <= b < n -> c b = 0%R.
Proof.
  intros Hp Hl n c rs Hn. revert c rs. pattern n. apply zsum_ind; auto; clear n Hn; [intros; lia|]. intros n Hn IH c rs HN HL Hr.
  assert (Hc : c n = 0%R).
  { assert (HF : forall k, 0 <= k -> PF (Z.to_nat k) (lead (Z.to_nat k) * c k) (fun r => zsum (k + 1) (fun b => p (Z.to_nat b) r * c b)%R)).
    { apply zsum_ind.
      - intros r. rewrite zsum_S, zsum_0 by lia. change (Z.to_nat 0) with O. pose proof (Hp O) as H0. cbn in H0. rewrite H0. ring.
      - intros k Hk IHk. apply (PF_ext _ _ (fun r => zsum (k + 1)%Z (fun b => p (Z.to_nat b) r * c b)%R + c (k + 1)%Z * p (Z.to_nat (k + 1)) r)%R).
        + intros r. rewrite (zsum_S (k + 1)) by lia. ring.
        + replace (lead (Z.to_nat (k + 1)) * c (k + 1)%Z)%R with (0 + c (k + 1)%Z * lead (Z.to_nat (k + 1)))%R by ring. apply PF_plus; [|apply PF_scal, Hp].
          replace (Z.to_nat (k + 1)) with (S (Z.to_nat k)) by lia. eapply PF_up; eauto. }
    specialize (HF n Hn). assert (E : (lead (Z.to_nat n) * c n)%R = 0%R).
    { apply (PF_roots _ _ _ (firstn (S (Z.to_nat n)) rs) HF); [now apply NoDup_firstn|rewrite firstn_length; unfold zlen in HL; lia|].
      intros r Hr'. apply Hr. rewrite <- (firstn_skipn (S (Z.to_nat n)) rs). apply in_or_app. auto. }
    apply Rmult_integral in E as [E|E]; auto. now apply Hl in E. }
  intros b Hb. destruct (Z.eq_dec b n) as [->|]; auto. apply (IH c rs); auto; [lia| |lia].
  intros r Hr'. specialize (Hr r Hr'). rewrite zsum_S in Hr by lia. rewrite Hc in Hr. lra.
Qed.
