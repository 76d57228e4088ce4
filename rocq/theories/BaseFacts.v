(** Lemmas about Base.v: error monad, ranges, lists, arrays. *)
From Coq Require Import ZArith List Bool Lia FinFun.
From Verif Require Import Base.
Import ListNotations.
Open Scope Z_scope.

Lemma Forall2_length {A B} (R : A -> B -> Prop) l m : Forall2 R l m -> length l = length m.
Proof. induction 1; cbn; auto. Qed.

Lemma bind_ok {A B} (r : res A) (f : A -> res B) b :
  bind r f = Ok b <-> exists a, r = Ok a /\ f a = Ok b.
Proof.
  destruct r; cbn; split; intros.
  - eauto.
  - destruct H as [a' [E H]]. congruence.
  - discriminate.
  - destruct H as [a' [E H]]. discriminate.
Qed.

Lemma bind_err {A B} (r : res A) (f : A -> res B) e :
  bind r f = Err e <-> r = Err e \/ exists a, r = Ok a /\ f a = Err e.
Proof.
  destruct r; cbn; split; intros; eauto.
  - destruct H as [E|[a' [E H]]]; congruence.
  - left; congruence.
  - destruct H as [E|[a' [E H]]]; congruence.
Qed.

Lemma bind_assoc {A B C} (r : res A) (f : A -> res B) (g : B -> res C) :
  bind (bind r f) g = bind r (fun a => bind (f a) g).
Proof. destruct r; reflexivity. Qed.

Lemma bind_ext {A B} (r : res A) (f g : A -> res B) :
  (forall a, r = Ok a -> f a = g a) -> bind r f = bind r g.
Proof. destruct r; cbn; auto. Qed.

(** ** mapM / mapM2 / foldM *)
Lemma mapM_ok {A B} (f : A -> res B) l bs :
  mapM f l = Ok bs <-> Forall2 (fun a b => f a = Ok b) l bs.
Proof.
  revert bs; induction l as [|a l IH]; intros bs; cbn.
  - split; intros H. inversion H; constructor. inversion H; reflexivity.
  - rewrite bind_ok. split.
    + intros [b [Hb H]]. apply bind_ok in H as [bs' [Hbs H]]. inversion H; subst.
      constructor; auto. apply IH; auto.
    + intros H. inversion H as [|? b ? bs' Hb Hbs]; subst. exists b; split; auto.
      apply bind_ok. exists bs'. split; auto. now apply IH.
Qed.

Lemma mapM_ext {A B} (f g : A -> res B) l :
  (forall a, In a l -> f a = g a) -> mapM f l = mapM g l.
Proof.
  induction l; cbn; intros H; auto.
  rewrite H by auto. apply bind_ext. intros. rewrite IHl by auto. reflexivity.
Qed.

Lemma mapM_map {A B C} (f : B -> res C) (g : A -> B) l :
  mapM f (map g l) = mapM (fun a => f (g a)) l.
Proof. induction l; cbn; auto. now rewrite IHl. Qed.

Lemma mapM_Ok {A B} (f : A -> B) l : mapM (fun a => Ok (f a)) l = Ok (map f l).
Proof. induction l; cbn; auto. now rewrite IHl. Qed.

Lemma mapM_all_ok {A B} (f : A -> res B) (g : A -> B) l :
  (forall a, In a l -> f a = Ok (g a)) -> mapM f l = Ok (map g l).
Proof. intros H. rewrite <- mapM_Ok. apply mapM_ext; auto. Qed.

Lemma mapM_length {A B} (f : A -> res B) l bs : mapM f l = Ok bs -> length bs = length l.
Proof. intros H. apply mapM_ok in H. symmetry. eapply Forall2_length; eauto. Qed.

Lemma mapM2_ok {A B C} (f : A -> B -> res C) l m cs :
  mapM2 f l m = Ok cs ->
  length l = length m /\ Forall2 (fun ab c => f (fst ab) (snd ab) = Ok c) (combine l m) cs.
Proof.
  revert m cs; induction l as [|a l IH]; destruct m as [|b m]; cbn; intros cs H; try discriminate.
  - inversion H; subst; split; auto; constructor.
  - apply bind_ok in H as [c [Hc H]]. apply bind_ok in H as [cs' [Hcs H]].
    inversion H; subst. apply IH in Hcs as [L F]. split; [lia|]. constructor; auto.
Qed.

Lemma mapM2_length {A B C} (f : A -> B -> res C) l m cs :
  mapM2 f l m = Ok cs -> length cs = length l /\ length l = length m.
Proof.
  intros H. apply mapM2_ok in H as [L F]. apply Forall2_length in F.
  rewrite combine_length in F. lia.
Qed.

Lemma foldM_app {S A} (f : S -> A -> res S) l1 l2 s :
  foldM f (l1 ++ l2) s = bind (foldM f l1 s) (foldM f l2).
Proof.
  revert s; induction l1; cbn; intros; auto. rewrite bind_assoc.
  apply bind_ext. intros. apply IHl1.
Qed.

Lemma foldM_ext {S A} (f g : S -> A -> res S) l s :
  (forall s a, In a l -> f s a = g s a) -> foldM f l s = foldM g l s.
Proof.
  revert s; induction l; cbn; intros s H; auto. rewrite H by auto.
  apply bind_ext. intros. apply IHl. auto.
Qed.

Lemma foldM_map {S A B} (f : S -> B -> res S) (g : A -> B) l s :
  foldM f (map g l) s = foldM (fun s a => f s (g a)) l s.
Proof. revert s; induction l; cbn; intros; auto. apply bind_ext. auto. Qed.

(** Invariant rule for loops over a list. *)
Lemma foldM_inv {S A} (f : S -> A -> res S) (I : list A -> S -> Prop) l s0 :
  I [] s0 ->
  (forall done a rest s, l = done ++ a :: rest -> I done s ->
     exists s', f s a = Ok s' /\ I (done ++ [a]) s') ->
  exists s', foldM f l s0 = Ok s' /\ I l s'.
Proof.
  intros H0 Hs.
  assert (G : forall rest done s, l = done ++ rest -> I done s ->
            exists s', foldM f rest s = Ok s' /\ I l s').
  { induction rest as [|a rest IH]; intros done s E HI; cbn.
    - rewrite app_nil_r in E; subst. eauto.
    - destruct (Hs done a rest s E HI) as [s' [E1 HI']]. rewrite E1; cbn.
      apply (IH (done ++ [a])); auto. rewrite <- app_assoc; auto. }
  apply (G l []); auto.
Qed.

(** ** Ranges *)
Lemma zrange_In n i : In i (zrange n) <-> 0 <= i < n.
Proof.
  unfold zrange. rewrite in_map_iff. split.
  - intros [k [E H]]. apply in_seq in H. lia.
  - intros H. exists (Z.to_nat i). rewrite in_seq. lia.
Qed.

Lemma zrange_length n : length (zrange n) = Z.to_nat n.
Proof. unfold zrange. now rewrite map_length, seq_length. Qed.

Lemma zrange_nil n : n <= 0 -> zrange n = [].
Proof. intros. unfold zrange. replace (Z.to_nat n) with 0%nat by lia. reflexivity. Qed.

Lemma zrange_S n : 0 <= n -> zrange (n + 1) = zrange n ++ [n].
Proof.
  intros. unfold zrange. replace (Z.to_nat (n + 1)) with (S (Z.to_nat n)) by lia.
  rewrite seq_S, map_app. cbn. now rewrite Z2Nat.id.
Qed.

Lemma zrange_cons n : 0 < n -> zrange n = 0 :: map Z.succ (zrange (n - 1)).
Proof.
  intros. unfold zrange. replace (Z.to_nat n) with (S (Z.to_nat (n - 1))) by lia.
  cbn. f_equal. rewrite <- seq_shift, !map_map. apply map_ext. intros; lia.
Qed.

Lemma zrange_NoDup n : NoDup (zrange n).
Proof.
  unfold zrange. apply Injective_map_NoDup. intros a b; lia. apply seq_NoDup.
Qed.

Lemma zrange_nth n i d : 0 <= i < n -> nth (Z.to_nat i) (zrange n) d = i.
Proof.
  intros. unfold zrange. rewrite nth_indep with (d' := Z.of_nat 0).
  rewrite map_nth, seq_nth by lia. lia. rewrite map_length, seq_length; lia.
Qed.

Lemma zrange_split n done a rest :
  zrange n = done ++ a :: rest -> done = zrange a /\ 0 <= a < n.
Proof.
  intros E.
  assert (Ha : In a (zrange n)). { rewrite E. apply in_elt. }
  apply zrange_In in Ha.
  assert (L : length done = Z.to_nat a).
  { assert (N1 : nth (length done) (zrange n) 0 = a).
    { rewrite E. rewrite app_nth2, Nat.sub_diag by lia. reflexivity. }
    assert (length done < length (zrange n))%nat.
    { rewrite E, app_length. cbn. lia. }
    rewrite zrange_length in H.
    rewrite <- (Nat2Z.id (length done)) in N1. rewrite zrange_nth in N1 by lia. lia. }
  split; [|lia].
  assert (F : firstn (length done) (zrange n) = done).
  { rewrite E. rewrite firstn_app, firstn_all, Nat.sub_diag. cbn. apply app_nil_r. }
  rewrite <- F, L. unfold zrange. rewrite firstn_map. f_equal.
  replace (Z.to_nat n) with (Z.to_nat a + (Z.to_nat n - Z.to_nat a))%nat by lia.
  rewrite seq_app, firstn_app, seq_length, Nat.sub_diag, firstn_all2 by (rewrite seq_length; lia).
  cbn. apply app_nil_r.
Qed.

(** Invariant rule for [for i in range(n)]. *)
Lemma foldM_zrange {S} (f : S -> Z -> res S) (I : Z -> S -> Prop) n s0 :
  0 <= n ->
  I 0 s0 ->
  (forall i s, 0 <= i < n -> I i s -> exists s', f s i = Ok s' /\ I (i + 1) s') ->
  exists s', foldM f (zrange n) s0 = Ok s' /\ I n s'.
Proof.
  intros Hn H0 Hs.
  destruct (foldM_inv f (fun don s => I (zlen don) s) (zrange n) s0) as [s' [E HI]].
  - exact H0.
  - intros don a rest s E HI. apply zrange_split in E as [E1 Ha].
    assert (L : zlen don = a). { subst don. unfold zlen. rewrite zrange_length; lia. }
    rewrite L in HI. destruct (Hs a s Ha HI) as [s' [E' HI']]. exists s'; split; auto.
    unfold zlen. rewrite app_length; cbn. unfold zlen in L.
    replace (Z.of_nat (length don + 1)) with (a + 1) by lia. auto.
  - exists s'; split; auto. unfold zlen in HI. rewrite zrange_length in HI.
    now rewrite Z2Nat.id in HI by lia.
Qed.

Lemma zrange2_as lo hi : zrange2 lo hi = map (fun i => lo + i) (zrange (hi - lo)).
Proof. reflexivity. Qed.

(** [for i in range(lo, hi)] *)
Lemma foldM_zrange2 {S} (f : S -> Z -> res S) (I : Z -> S -> Prop) lo hi s0 :
  lo <= hi ->
  I lo s0 ->
  (forall i s, lo <= i < hi -> I i s -> exists s', f s i = Ok s' /\ I (i + 1) s') ->
  exists s', foldM f (zrange2 lo hi) s0 = Ok s' /\ I hi s'.
Proof.
  intros Hn H0 Hs. unfold zrange2. rewrite foldM_map.
  destruct (foldM_zrange (fun s a => f s (lo + a)) (fun i s => I (lo + i) s) (hi - lo) s0)
    as [s' [E HI]]; try lia.
  - now rewrite Z.add_0_r.
  - intros i s Hi HI. destruct (Hs (lo + i) s) as [s' [E HI']]; [lia|auto|].
    exists s'; split; auto. now replace (lo + (i + 1)) with (lo + i + 1) by lia.
  - exists s'; split; auto. now replace (lo + (hi - lo)) with hi in HI by lia.
Qed.

(** [for i in range(hi, lo, -1)] *)
Lemma foldM_zrange_down {S} (f : S -> Z -> res S) (I : Z -> S -> Prop) hi lo s0 :
  lo <= hi ->
  I hi s0 ->
  (forall i s, lo < i <= hi -> I i s -> exists s', f s i = Ok s' /\ I (i - 1) s') ->
  exists s', foldM f (zrange_down hi lo) s0 = Ok s' /\ I lo s'.
Proof.
  intros Hn H0 Hs. unfold zrange_down. rewrite foldM_map.
  destruct (foldM_zrange (fun s a => f s (hi - a)) (fun i s => I (hi - i) s) (hi - lo) s0)
    as [s' [E HI]]; try lia.
  - now rewrite Z.sub_0_r.
  - intros i s Hi HI. destruct (Hs (hi - i) s) as [s' [E HI']]; [lia|auto|].
    exists s'; split; auto. now replace (hi - (i + 1)) with (hi - i - 1) by lia.
  - exists s'; split; auto. now replace (hi - (hi - lo)) with lo in HI by lia.
Qed.

(** ** Lists *)
Lemma lget_ok {A} (l : list A) i d :
  0 <= i < zlen l -> lget l i = Ok (nth (Z.to_nat i) l d).
Proof.
  intros [H1 H2]. unfold lget, zlen in *.
  destruct (i <? 0) eqn:E; [lia|].
  rewrite (nth_error_nth' l d) by lia. reflexivity.
Qed.

Lemma lget_inv {A} (l : list A) i x : lget l i = Ok x -> 0 <= i < zlen l /\ nth_error l (Z.to_nat i) = Some x.
Proof.
  unfold lget, zlen. destruct (i <? 0) eqn:E; [discriminate|].
  destruct (nth_error l (Z.to_nat i)) eqn:E2; [|discriminate].
  intros H; inversion H; subst. split; auto.
  assert (Z.to_nat i < length l)%nat. { apply nth_error_Some. congruence. } lia.
Qed.

Lemma map2_length {A B C} (f : A -> B -> C) l m :
  length l = length m -> length (map2 f l m) = length l.
Proof. revert m; induction l; destruct m; cbn; intros; try discriminate; auto. Qed.

Lemma zlen_cons {A} (a : A) l : zlen (a :: l) = zlen l + 1.
Proof. unfold zlen; cbn [length]; lia. Qed.
Lemma zlen_nil {A} : zlen (@nil A) = 0. Proof. reflexivity. Qed.
Lemma zlen_nonneg {A} (l : list A) : 0 <= zlen l. Proof. unfold zlen; lia. Qed.
Lemma zlen_app {A} (l m : list A) : zlen (l ++ m) = zlen l + zlen m.
Proof. unfold zlen; rewrite app_length; lia. Qed.
Lemma zlen_map {A B} (f : A -> B) l : zlen (map f l) = zlen l.
Proof. unfold zlen; now rewrite map_length. Qed.

Lemma zlen_zrange n : 0 <= n -> zlen (zrange n) = n.
Proof. intros. unfold zlen. rewrite zrange_length. lia. Qed.

Lemma nth_error_zmap {B} (w : Z -> B) n j :
  0 <= j < n -> nth_error (map w (zrange n)) (Z.to_nat j) = Some (w j).
Proof.
  intros. rewrite nth_error_map, (nth_error_nth' _ 0) by (rewrite zrange_length; lia).
  now rewrite zrange_nth by lia.
Qed.

Lemma nth_zmap {B} (w : Z -> B) n j d :
  0 <= j < n -> nth (Z.to_nat j) (map w (zrange n)) d = w j.
Proof. intros. apply nth_error_nth with (d := d). now apply nth_error_zmap. Qed.

Lemma map_nth_zrange {A} (l : list A) d : map (fun j => nth (Z.to_nat j) l d) (zrange (zlen l)) = l.
Proof.
  unfold zrange, zlen. rewrite Nat2Z.id, map_map.
  rewrite map_ext with (g := fun a => nth a l d) by (intros; now rewrite Nat2Z.id).
  induction l; cbn; auto. f_equal. rewrite <- seq_shift, map_map. auto.
Qed.

(** [mapM] over a list whose results are known by position. *)
Lemma mapM_nth {A B} (f : A -> res B) (d0 : A) (w : Z -> B) l :
  (forall j, 0 <= j < zlen l -> f (nth (Z.to_nat j) l d0) = Ok (w j)) ->
  mapM f l = Ok (map w (zrange (zlen l))).
Proof.
  intros H. rewrite <- (map_nth_zrange l d0) at 1. rewrite mapM_map.
  apply mapM_all_ok. intros a Ha. apply zrange_In in Ha. auto.
Qed.

(** ** Arrays *)
Lemma idx_eqb_spec a b : reflect (a = b) (idx_eqb a b).
Proof.
  revert b; induction a as [|x a IH]; destruct b as [|y b]; cbn; try (constructor; congruence).
  destruct (Z.eqb_spec x y); cbn.
  - destruct (IH b); constructor; congruence.
  - constructor; congruence.
Qed.

Lemma idx_eqb_refl a : idx_eqb a a = true.
Proof. destruct (idx_eqb_spec a a); congruence. Qed.

Lemma idx_eqb_neq a b : a <> b -> idx_eqb a b = false.
Proof. intros. destruct (idx_eqb_spec a b); congruence. Qed.

Lemma inb_spec sh idx : inb sh idx = true <-> Forall2 (fun n i => 0 <= i < n) sh idx.
Proof.
  revert idx; induction sh as [|n sh IH]; destruct idx as [|i idx]; cbn;
    try (split; [discriminate|intros H; inversion H]).
  - split; auto.
  - rewrite !andb_true_iff, IH. split.
    + intros [[? ?] ?]. constructor; auto. lia.
    + intros H; inversion H; subst. split; [split|]; auto; lia.
Qed.

Lemma inb_length sh idx : inb sh idx = true -> length idx = length sh.
Proof. rewrite inb_spec. intros H. symmetry. eapply Forall2_length; eauto. Qed.

Lemma inb_app sh1 sh2 i1 i2 :
  length sh1 = length i1 -> inb (sh1 ++ sh2) (i1 ++ i2) = inb sh1 i1 && inb sh2 i2.
Proof.
  revert i1; induction sh1; destruct i1; cbn; intros; try discriminate; auto.
  rewrite IHsh1 by lia. now rewrite !andb_assoc.
Qed.

Lemma aget_ok {T} (a : arr T) idx : inb (ashape a) idx = true -> aget a idx = Ok (acell a idx).
Proof. unfold aget. now intros ->. Qed.

Lemma aget_inv {T} (a : arr T) idx v :
  aget a idx = Ok v -> inb (ashape a) idx = true /\ v = acell a idx.
Proof.
  unfold aget. destruct (inb (ashape a) idx); [intros H; inversion H; auto|].
  destruct (_ =? _); discriminate.
Qed.

Definition upd {T} (a : arr T) idx v :=
  mkArr (ashape a) (fun j => if idx_eqb j idx then v else acell a j).

Lemma aset_ok {T} (a : arr T) idx v : inb (ashape a) idx = true -> aset a idx v = Ok (upd a idx v).
Proof. unfold aset, upd. now intros ->. Qed.

Lemma aset_inv {T} (a a' : arr T) idx v :
  aset a idx v = Ok a' -> inb (ashape a) idx = true /\ a' = upd a idx v.
Proof.
  unfold aset. destruct (inb (ashape a) idx); [intros H; inversion H; auto|].
  destruct (_ =? _); discriminate.
Qed.

Lemma upd_same {T} (a : arr T) idx v : acell (upd a idx v) idx = v.
Proof. cbn. now rewrite idx_eqb_refl. Qed.
Lemma upd_other {T} (a : arr T) idx j v : j <> idx -> acell (upd a idx v) j = acell a j.
Proof. intros. cbn. now rewrite idx_eqb_neq. Qed.
Lemma upd_shape {T} (a : arr T) idx v : ashape (upd a idx v) = ashape a.
Proof. reflexivity. Qed.

Lemma aeq_refl {T} (a : arr T) : aeq a a.
Proof. split; auto. Qed.
Lemma aeq_sym {T} (a b : arr T) : aeq a b -> aeq b a.
Proof. intros [H1 H2]; split; auto. intros. symmetry. apply H2. now rewrite H1. Qed.
Lemma aeq_trans {T} (a b c : arr T) : aeq a b -> aeq b c -> aeq a c.
Proof.
  intros [H1 H2] [H3 H4]; split. congruence. intros. rewrite H2 by auto. apply H4. congruence.
Qed.
Lemma aeq_aget {T} (a b : arr T) idx : aeq a b -> aget a idx = aget b idx.
Proof.
  intros [H1 H2]. unfold aget. rewrite <- H1. destruct (inb (ashape a) idx) eqn:E; auto.
  now rewrite H2.
Qed.

Ltac inv_ok :=
  repeat match goal with
  | H : bind _ _ = Ok _ |- _ => apply bind_ok in H; destruct H as [? [? H]]
  | H : Ok _ = Ok _ |- _ => inversion H; clear H; subst
  | H : Err _ = Ok _ |- _ => discriminate H
  end.
