(** Complete polynomials: enumeration of index tuples, in any arithmetic. *)
From Coq Require Import ZArith List Bool Lia ZifyBool.
From Verif Require Import Base BaseFacts CompleteModel SpecComplete.
Import ListNotations.
Open Scope Z_scope.
Open Scope num_scope.

(** ** Binomials and n_complete *)
Lemma binom_0 n : binom n 0 = 1.
Proof. now destruct n. Qed.
Lemma binom_S n k : binom (S n) (S k) = binom n k + binom n (S k).
Proof. reflexivity. Qed.
Lemma binom_absorb : forall m k, Z.of_nat (S k) * binom (S m) (S k) = Z.of_nat (S m) * binom m k.
Proof.
  induction m as [|m IH]; intros k.
  - destruct k as [|k]; [reflexivity|]. cbn [binom]. destruct k; lia.
  - destruct k as [|k].
    + rewrite binom_S, !binom_0. pose proof (IH 0%nat) as H. rewrite binom_0 in H. lia.
    + rewrite binom_S. rewrite Z.mul_add_distr_l. rewrite (IH (S k)).
      pose proof (IH k) as H. rewrite (binom_S m k) in *. nia.
Qed.
Definition rising (n : Z) (k : Z) : Z := fold_left (fun tmp j => tmp * (n + j)) (zrange k) 1.
Fixpoint zfact (k : nat) : Z := match k with O => 1 | S k' => zfact k' * Z.of_nat k end.
Lemma zfact_pos k : 0 < zfact k.
Proof. induction k; cbn [zfact]; lia. Qed.
Lemma rising_S n k : 0 <= k -> rising n (k + 1) = rising n k * (n + k).
Proof. intros H. unfold rising. rewrite zrange_S, fold_left_app by auto. reflexivity. Qed.
Lemma rising_binom n k : rising (Z.of_nat n) (Z.of_nat k) = zfact k * binom (n + k - 1) k.
Proof.
  induction k as [|k IH].
  - cbn. now rewrite binom_0.
  - rewrite Nat2Z.inj_succ, <- Z.add_1_r, rising_S, IH by lia. cbn [zfact].
    destruct (n + k)%nat as [|m] eqn:E.
    + assert (n = 0 /\ k = 0)%nat as [-> ->] by lia. reflexivity.
    + replace (n + S k - 1)%nat with (S m) by lia.
      pose proof (binom_absorb m k) as H. set (B := binom (S m) (S k)) in *. set (B0 := binom m k) in *.
      replace (Z.of_nat n + Z.of_nat k) with (Z.of_nat (S m)) by lia. set (F := zfact k). replace (S m - 1)%nat with m by lia. fold B0. rewrite <- !Z.mul_assoc, H. ring.
Qed.
Lemma n_complete_state n d : 
  fold_left (fun s i => let '(out, denom) := s in let denom := denom * (i + 1) in
     let tmp := fold_left (fun tmp j => tmp * (Z.of_nat n + j)) (zrange (i + 1)) 1 in
     (out + tmp / denom, denom)) (zrange (Z.of_nat d)) (1, 1) = (binom (n + d) d, zfact d).
Proof.
  induction d as [|d IH].
  - cbn. now rewrite binom_0.
  - rewrite Nat2Z.inj_succ, <- Z.add_1_r, zrange_S, fold_left_app, IH by lia. cbn [fold_left].
    replace (Z.of_nat d + 1) with (Z.of_nat (S d)) by lia. fold (rising (Z.of_nat n) (Z.of_nat (S d))).
    rewrite rising_binom. f_equal.
    change (zfact d * Z.of_nat (S d)) with (zfact (S d)). pose proof (zfact_pos (S d)).
    rewrite Z.mul_comm, Z.div_mul by lia. rewrite <- plus_n_Sm. rewrite binom_S. f_equal. f_equal. lia.
Qed.
Lemma n_complete_binom n d : 0 <= n -> 0 <= d -> n_complete n d = binom (Z.to_nat n + Z.to_nat d) (Z.to_nat d).
Proof.
  intros Hn Hd. unfold n_complete. pose proof (n_complete_state (Z.to_nat n) (Z.to_nat d)) as H.
  rewrite !Z2Nat.id in H by auto. exact (f_equal fst H).
Qed.
(** The divisions are exact. *)
Lemma n_complete_exact n k : 0 <= n -> 0 <= k ->
  (fold_left (fun a j => a * (j + 1)) (zrange k) 1 | fold_left (fun tmp j => tmp * (n + j)) (zrange k) 1).
Proof.
  intros Hn Hk. assert (E : fold_left (fun a j => a * (j + 1)) (zrange k) 1 = zfact (Z.to_nat k)).
  { rewrite <- (Z2Nat.id k) at 1 by auto. induction (Z.to_nat k) as [|m IH]; [reflexivity|].
    rewrite Nat2Z.inj_succ, <- Z.add_1_r, zrange_S, fold_left_app, IH by lia. cbn [fold_left zfact]. f_equal. lia. }
  rewrite E. change (zfact (Z.to_nat k) | rising n k). rewrite <- (Z2Nat.id n), <- (Z2Nat.id k) by auto.
  rewrite rising_binom. rewrite Nat2Z.id. apply Z.divide_factor_l.
Qed.

(** ** Index tuples *)
Fixpoint ext (n : Z) (k : nat) (p : list Z) (lo : Z) : list (list Z) :=
  match k with
  | O => []
  | S k => flat_map (fun i => (p ++ [i]) :: ext n k (p ++ [i]) i) (zrange2 lo n)
  end.
Definition high (n : Z) (d : nat) : list (list Z) := flat_map (fun i => ext n (pred d) [i] i) (zrange2 0 n).
Definition tuples (n : Z) (d : nat) : list (list Z) :=
  match d with O => [[]] | _ => [] :: map (fun i => [i]) (zrange n) ++ high n d end.

Lemma zrange2_nil lo hi : hi <= lo -> zrange2 lo hi = [].
Proof. intros H. unfold zrange2. now rewrite zrange_nil by lia. Qed.
Lemma zrange2_cons lo hi : lo < hi -> zrange2 lo hi = lo :: zrange2 (lo + 1) hi.
Proof.
  intros H. unfold zrange2. rewrite zrange_cons by lia. cbn [map]. rewrite Z.add_0_r. f_equal.
  rewrite map_map. replace (hi - (lo + 1)) with (hi - lo - 1) by lia. apply map_ext. intros. lia.
Qed.
Lemma zrange2_0 n : zrange2 0 n = zrange n.
Proof. unfold zrange2. rewrite Z.sub_0_r. rewrite map_ext with (g := fun i => i) by (intros; lia). apply map_id. Qed.
Lemma zrange2_In lo hi i : In i (zrange2 lo hi) <-> lo <= i < hi.
Proof.
  unfold zrange2. rewrite in_map_iff. split.
  - intros [j [<- H]]. apply zrange_In in H. lia.
  - intros H. exists (i - lo). split; [lia|]. apply zrange_In. lia.
Qed.
Lemma zrange2_NoDup lo hi : NoDup (zrange2 lo hi).
Proof. unfold zrange2. apply FinFun.Injective_map_NoDup; [intros a b; lia|apply zrange_NoDup]. Qed.

Lemma ext_length : forall k n p lo m, Z.to_nat (n - lo) = m -> zlen (ext n k p lo) = binom (m + k) k - 1.
Proof.
  induction k as [|k IHk]; intros n p lo m Hm.
  - cbn. rewrite binom_0. reflexivity.
  - cbn [ext]. revert lo Hm. induction m as [|m IHm]; intros lo Hm.
    + rewrite zrange2_nil by lia. cbn [flat_map]. change (zlen []) with 0.
      assert (E : binom (0 + S k) (S k) = 1); [|lia].
      cbn [Nat.add]. clear. assert (H : forall j a, (a < j)%nat -> binom a j = 0).
      { intros j. induction j as [|j IH]; intros a Ha; [lia|]. destruct a as [|a]; [reflexivity|].
        rewrite binom_S, !IH by lia. induction a as [|a IHa]; [now destruct j|].
        rewrite binom_S. rewrite IH by lia. rewrite IHa by lia. reflexivity. }
      induction k as [|k IHk]; [reflexivity|]. rewrite binom_S, IHk, H by lia. reflexivity.
    + rewrite zrange2_cons by lia. cbn [flat_map]. unfold zlen in *. rewrite app_length. cbn [length].
      rewrite Nat2Z.inj_add, Nat2Z.inj_succ. rewrite IHm by lia. rewrite (IHk n _ lo (S m)) by lia.
      replace (S m + S k)%nat with (S (S m + k)) by lia. rewrite binom_S.
      replace (m + S k)%nat with (S m + k)%nat by lia. lia.
Qed.
Lemma high_length n d : 0 <= n -> (1 <= d)%nat -> zlen (high n d) = binom (Z.to_nat n + d) d - 1 - n.
Proof.
  intros Hn Hd. unfold high. destruct d as [|d]; [lia|]. cbn [pred].
  assert (H : forall m lo, Z.to_nat (n - lo) = m -> lo <= n -> zlen (flat_map (fun i => ext n d [i] i) (zrange2 lo n)) = binom (m + S d) (S d) - 1 - (n - lo)).
  { induction m as [|m IHm]; intros lo Hm Hlo.
    - rewrite zrange2_nil by lia. cbn [flat_map]. change (zlen []) with 0.
      pose proof (ext_length (S d) n [] n 0 ltac:(lia)) as H. cbn [ext] in H. rewrite zrange2_nil in H by lia. cbn [flat_map] in H.
      change (zlen []) with 0 in H. lia.
    - rewrite zrange2_cons by lia. cbn [flat_map]. unfold zlen in *. rewrite app_length, Nat2Z.inj_add.
      rewrite IHm by lia. pose proof (ext_length d n [lo] lo (S m) ltac:(lia)) as E. unfold zlen in E. rewrite E.
      replace (S m + S d)%nat with (S (S m + d)) by lia. rewrite binom_S. replace (m + S d)%nat with (S m + d)%nat by lia. lia. }
  rewrite (H (Z.to_nat n) 0) by lia. lia.
Qed.
Lemma tuples_length n d : 0 <= n -> 0 <= d -> zlen (tuples n (Z.to_nat d)) = n_complete n d.
Proof.
  intros Hn Hd. rewrite n_complete_binom by auto. destruct (Z.to_nat d) as [|m] eqn:E.
  - cbn. now rewrite binom_0.
  - unfold tuples. pose proof (high_length n (S m) Hn ltac:(lia)) as H. unfold zlen in *. cbn [length].
    rewrite app_length, map_length, zrange_length. lia.
Qed.

(** Nondecreasing from lo, below n. *)
Fixpoint nondec (n lo : Z) (q : list Z) : Prop :=
  match q with [] => True | i :: r => lo <= i < n /\ nondec n i r end.
Lemma ext_In : forall k n p lo t, In t (ext n k p lo) <->
  exists q, t = p ++ q /\ (1 <= length q <= k)%nat /\ nondec n lo q.
Proof.
  induction k as [|k IH]; intros n p lo t; cbn [ext].
  - split; [intros []|]. intros (q & _ & H & _). lia.
  - rewrite in_flat_map. split.
    + intros (i & Hi & [<-|H]).
      * apply zrange2_In in Hi. exists [i]. cbn. repeat split; auto; lia.
      * apply zrange2_In in Hi. apply IH in H as (q & -> & Hl & Hq). exists (i :: q). rewrite <- app_assoc. cbn. repeat split; auto; lia.
    + intros (q & -> & Hl & Hq). destruct q as [|i r]; [cbn in Hl; lia|]. destruct Hq as [Hi Hr]. exists i.
      split; [now apply zrange2_In|]. destruct r as [|j r]; [now left|]. right. apply IH. exists (j :: r).
      rewrite <- app_assoc. cbn in *. intuition lia.
Qed.
Lemma NoDup_app {A} (l m : list A) : NoDup l -> NoDup m -> (forall x, In x l -> ~ In x m) -> NoDup (l ++ m).
Proof.
  induction l as [|a l IH]; cbn; intros Hl Hm Hd; auto. inversion Hl; subst. constructor.
  - rewrite in_app_iff. intros [H|H]; [auto|]. apply (Hd a); auto.
  - apply IH; auto.
Qed.
Lemma NoDup_flat_map {A B} (f : A -> list B) : forall l, NoDup l -> (forall a, In a l -> NoDup (f a)) ->
  (forall a b x, In a l -> In b l -> In x (f a) -> In x (f b) -> a = b) -> NoDup (flat_map f l).
Proof.
  induction l as [|a l IH]; intros Hl Hf Hd; cbn; [constructor|]. inversion Hl; subst.
  apply NoDup_app; [apply Hf; now left| |].
  - apply IH; auto; intros; [apply Hf|eapply Hd]; eauto; now right.
  - intros x Hx Hin. apply in_flat_map in Hin as (b & Hb & Hxb). apply H1.
    rewrite (Hd a b x); auto; [now left|now right].
Qed.
Lemma ext_NoDup : forall k n p lo, NoDup (ext n k p lo).
Proof.
  induction k as [|k IH]; intros n p lo; cbn [ext]; [constructor|]. apply NoDup_flat_map.
  - apply zrange2_NoDup.
  - intros i _. constructor; [|apply IH]. intros H. apply ext_In in H as (q & E & Hl & _).
    apply (f_equal (@length Z)) in E. rewrite !app_length in E. lia.
  - assert (G : forall i x, In x ((p ++ [i]) :: ext n k (p ++ [i]) i) -> exists q, x = p ++ i :: q).
    { intros i x [<-|H]; [now exists []|]. apply ext_In in H as (q & -> & _). exists q. now rewrite <- app_assoc. }
    intros a b x _ _ Ha Hb. apply G in Ha as [q ->]. apply G in Hb as [q' E]. apply app_inv_head in E. congruence.
Qed.
Lemma tuples_In n d t : 0 <= n -> In t (tuples n d) <-> (length t <= d)%nat /\ nondec n 0 t.
Proof.
  intros Hn. destruct d as [|d].
  - cbn. split; [intros [<-|[]]; cbn; auto|]. intros [H _]. left. destruct t; auto; cbn in H; lia.
  - unfold tuples. cbn [In]. rewrite in_app_iff, in_map_iff. unfold high. rewrite in_flat_map. cbn [pred]. split.
    + intros [<-|[(i & <- & Hi)|(i & Hi & H)]].
      * cbn. split; auto; lia.
      * apply zrange_In in Hi. cbn. repeat split; auto; lia.
      * apply zrange2_In in Hi. apply ext_In in H as (q & -> & Hl & Hq). cbn. repeat split; auto; lia.
    + intros [Hl Hq]. destruct t as [|i [|j q]]; [auto| |]; right.
      * left. exists i. split; auto. apply zrange_In. apply Hq.
      * right. destruct Hq as [Hi Hq]. exists i. split; [now apply zrange2_In|]. apply ext_In. exists (j :: q). cbn in *. intuition lia.
Qed.
Lemma tuples_NoDup n d : NoDup (tuples n d).
Proof.
  destruct d as [|d]; [repeat constructor; auto|]. unfold tuples. constructor.
  - rewrite in_app_iff, in_map_iff. intros [(i & E & _)|H]; [discriminate|].
    unfold high in H. apply in_flat_map in H as (i & _ & H). apply ext_In in H as (q & E & _). discriminate.
  - apply NoDup_app.
    + apply FinFun.Injective_map_NoDup; [intros a b; congruence|apply zrange_NoDup].
    + unfold high. apply NoDup_flat_map; [apply zrange2_NoDup|intros; apply ext_NoDup|].
      intros a b x _ _ Ha Hb. apply ext_In in Ha as (q & -> & _). apply ext_In in Hb as (q' & E & _). now inversion E.
    + intros x Hx H. apply in_map_iff in Hx as (i & <- & _). unfold high in H. apply in_flat_map in H as (j & _ & H).
      apply ext_In in H as (q & E & Hl & _). destruct q; [cbn in Hl; lia|discriminate].
Qed.
Lemma tuples_hd n d : exists r, tuples n d = [] :: r.
Proof. destruct d; cbn; eauto. Qed.
