(** Complete polynomials: proofs of C29-C33. *)
From Coq Require Import ZArith List Bool Reals Lia Lra Psatz ZifyBool.
From Coquelicot Require Import Coquelicot.
From Verif Require Import Base BaseFacts RSum CompleteModel SpecComplete CompleteGeneric CompleteLoops.
Import ListNotations.
Open Scope Z_scope.

(** ** Any arithmetic *)
Section Any.
Context {T : Type} {NT : Num T}.
Lemma cp_vec n d (z : arr T) : 0 <= n -> 0 <= d <= 5 -> ashape z = [n] ->
  exists out, complete_polynomial z d = Ok out /\ ashape out = [n_complete n d] /\
  forall j t, nth_error (tuples n (Z.to_nat d)) j = Some t -> acell out [Z.of_nat j] = pval (fun i => acell z [i]) t.
Proof.
  intros Hn Hd S. unfold complete_polynomial. rewrite S. destruct (Z.leb_spec 0 d); [|lia]. destruct (Z.ltb_spec 5 d); [lia|]. cbn [negb].
  apply impl_vec_spec; auto; lia.
Qed.
Lemma cp_mat n nobs d (z : arr T) : 0 <= n -> 0 <= nobs -> 0 <= d <= 5 -> ashape z = [n; nobs] ->
  exists out, complete_polynomial z d = Ok out /\ ashape out = [n_complete n d; nobs] /\
  forall j t k, nth_error (tuples n (Z.to_nat d)) j = Some t -> 0 <= k < nobs -> acell out [Z.of_nat j; k] = pval (fun i => acell z [i; k]) t.
Proof.
  intros Hn Ho Hd S. unfold complete_polynomial. rewrite S. destruct (Z.leb_spec 0 d); [|lia]. destruct (Z.ltb_spec 5 d); [lia|]. cbn [negb].
  apply impl_spec; auto; lia.
Qed.
Lemma cpd_vec n d der (z : arr T) : 0 <= n -> 0 <= d <= 5 -> 0 <= der < n -> ashape z = [n] ->
  exists out, complete_polynomial_der z d der = Ok out /\ ashape out = [n_complete n d] /\
  forall j t, nth_error (tuples n (Z.to_nat d)) j = Some t -> acell out [Z.of_nat j] = dval (fun i => acell z [i]) der t.
Proof.
  intros Hn Hd Hder S. unfold complete_polynomial_der. rewrite S. destruct (Z.leb_spec 0 d); [|lia]. destruct (Z.leb_spec 0 der); [|lia].
  destruct (Z.ltb_spec 5 d); [lia|]. destruct (Z.ltb_spec der n); [|lia]. cbn [negb]. apply der_vec_spec; auto; lia.
Qed.
Lemma cpd_mat n nobs d der (z : arr T) : 0 <= n -> 0 <= nobs -> 0 <= d <= 5 -> 0 <= der < n -> ashape z = [n; nobs] ->
  exists out, complete_polynomial_der z d der = Ok out /\ ashape out = [n_complete n d; nobs] /\
  forall j t k, nth_error (tuples n (Z.to_nat d)) j = Some t -> 0 <= k < nobs -> acell out [Z.of_nat j; k] = dval (fun i => acell z [i; k]) der t.
Proof.
  intros Hn Ho Hd Hder S. unfold complete_polynomial_der. rewrite S. destruct (Z.leb_spec 0 d); [|lia]. destruct (Z.leb_spec 0 der); [|lia].
  destruct (Z.ltb_spec 5 d); [lia|]. destruct (Z.ltb_spec der n); [|lia]. cbn [negb]. apply der_spec; auto; lia.
Qed.

Lemma tuple_at n d j : 0 <= n -> 0 <= d -> 0 <= j < n_complete n d -> exists t, nth_error (tuples n (Z.to_nat d)) (Z.to_nat j) = Some t.
Proof.
  intros Hn Hd Hj. destruct (nth_error (tuples n (Z.to_nat d)) (Z.to_nat j)) as [t|] eqn:E; eauto.
  apply nth_error_None in E. pose proof (tuples_length n d Hn Hd). unfold zlen in *. lia.
Qed.
Lemma nondec_in n : forall t lo, 0 <= lo -> nondec n lo t -> forall i, In i t -> 0 <= i < n.
Proof. induction t as [|a t IH]; cbn; intros lo Hlo Ht i Hi; [tauto|]. destruct Hi as [->|Hi]; [lia|]. apply (IH a); auto; [lia|tauto]. Qed.
Lemma pval_ext (f g : Z -> T) t : (forall i, In i t -> f i = g i) -> pval f t = pval g t.
Proof.
  intros H. destruct t as [|i r]; [reflexivity|]. unfold pval. rewrite H by now left.
  assert (HR : forall j, In j r -> f j = g j) by (intros; apply H; now right). clear - HR.
  generalize (g i). induction r as [|j r IH]; cbn; intros a; auto. rewrite HR by now left. apply IH. intros; apply HR; now right.
Qed.
Lemma dval_ext (f g : Z -> T) der t : (forall i, In i t -> f i = g i) -> f der = g der -> dval f der t = dval g der t.
Proof.
  intros H Hd. destruct t as [|i [|j r]]; [reflexivity|reflexivity|]. unfold dval. rewrite Hd. destruct (0 <? _); [|reflexivity]. f_equal.
  generalize (n_ofZ (dcount der (i :: j :: r) 0)). revert H. generalize (i :: j :: r). intros l H.
  induction l as [|a l IH]; cbn; intros x; auto. rewrite H by now left. apply IH. intros; apply H; now right.
Qed.

Lemma forms_agree n nobs d (z v : arr T) k : 0 <= n -> 0 <= d <= 5 -> ashape z = [n; nobs] -> ashape v = [n] -> 0 <= k < nobs ->
  (forall i, 0 <= i < n -> acell v [i] = acell z [i; k]) ->
  exists A B, complete_polynomial z d = Ok A /\ complete_polynomial v d = Ok B /\
    ashape A = [n_complete n d; nobs] /\ ashape B = [n_complete n d] /\
    forall r, 0 <= r < n_complete n d -> acell A [r; k] = acell B [r].
Proof.
  intros Hn Hd Sz Sv Hk Hv. destruct (cp_mat n nobs d z) as (A & EA & SA & VA); auto; [lia|].
  destruct (cp_vec n d v) as (B & EB & SB & VB); auto. exists A, B. repeat split; auto. intros r Hr.
  destruct (tuple_at n d r Hn ltac:(lia) Hr) as [t Ht]. rewrite <- (Z2Nat.id r) by lia. rewrite (VA _ _ _ Ht Hk), (VB _ _ Ht).
  apply pval_ext. intros i Hi. symmetry. apply Hv. apply nth_error_In in Ht. apply tuples_In in Ht as [_ Ht]; auto.
  apply (nondec_in n t 0); auto. lia.
Qed.
Lemma der_forms_agree n nobs d der (z v : arr T) k : 0 <= d <= 5 -> 0 <= der < n -> ashape z = [n; nobs] -> ashape v = [n] -> 0 <= k < nobs ->
  (forall i, 0 <= i < n -> acell v [i] = acell z [i; k]) ->
  exists A B, complete_polynomial_der z d der = Ok A /\ complete_polynomial_der v d der = Ok B /\
    ashape A = [n_complete n d; nobs] /\ ashape B = [n_complete n d] /\
    forall r, 0 <= r < n_complete n d -> acell A [r; k] = acell B [r].
Proof.
  intros Hd Hder Sz Sv Hk Hv. assert (Hn : 0 <= n) by lia. destruct (cpd_mat n nobs d der z) as (A & EA & SA & VA); auto; [lia|].
  destruct (cpd_vec n d der v) as (B & EB & SB & VB); auto. exists A, B. repeat split; auto. intros r Hr.
  destruct (tuple_at n d r Hn ltac:(lia) Hr) as [t Ht]. rewrite <- (Z2Nat.id r) by lia. rewrite (VA _ _ _ Ht Hk), (VB _ _ Ht).
  apply dval_ext; [|symmetry; now apply Hv]. intros i Hi. symmetry. apply Hv. apply nth_error_In in Ht. apply tuples_In in Ht as [_ Ht]; auto.
  apply (nondec_in n t 0); auto. lia.
Qed.
End Any.

(** ** Exponents *)
Definition expo (n : Z) (t : list Z) : list nat := map (count_occ Z.eq_dec t) (zrange n).
Definition basis (n d : Z) : list (list nat) := map (expo n) (tuples n (Z.to_nat d)).

Lemma degree_expo n t : (forall i, In i t -> 0 <= i < n) -> degree (expo n t) = length t.
Proof.
  unfold expo. intros H. assert (HI : forall i, In i t -> In i (zrange n)) by (intros; apply zrange_In; auto). clear H.
  assert (N := zrange_NoDup n). revert N HI. generalize (zrange n) as l. induction t as [|a t IH]; intros l N HI.
  - clear. induction l as [|b l IHl]; [reflexivity|]. exact IHl.
  - cbn [length]. rewrite <- (IH l) by (auto; intros; apply HI; now right).
    assert (Ha : In a l) by (apply HI; now left). clear - N Ha. unfold degree.
    induction l as [|b l IHl]; [destruct Ha|]. inversion N; subst. cbn [map fold_right]. destruct Ha as [->|Ha].
    + cbn [count_occ]. destruct (Z.eq_dec a a); [|congruence]. cbn. do 2 f_equal.
      f_equal. apply map_ext_in. intros c Hc. cbn. destruct (Z.eq_dec a c); [subst; tauto|auto].
    + rewrite IHl by auto. cbn [count_occ]. destruct (Z.eq_dec a b); [subst; tauto|]. lia.
Qed.
Lemma nondec_weaken n : forall q lo lo', nondec n lo q -> lo' <= lo -> nondec n lo' q.
Proof. destruct q; cbn; intros; [auto|]. split; [lia|tauto]. Qed.
Lemma nondec_all n : forall t lo i, nondec n lo t -> In i t -> lo <= i < n.
Proof. induction t as [|a t IH]; cbn; intros lo i H Hi; [tauto|]. destruct Hi as [->|Hi]; [lia|]. specialize (IH a i (proj2 H) Hi). lia. Qed.

Lemma nondec_inj n : forall t t' lo lo', nondec n lo t -> nondec n lo' t' ->
  (forall j, count_occ Z.eq_dec t j = count_occ Z.eq_dec t' j) -> t = t'.
Proof.
  induction t as [|a t IH]; intros t' lo lo' Ht Ht' HC.
  - destruct t' as [|b t']; auto. specialize (HC b). cbn in HC. destruct (Z.eq_dec b b); [discriminate|congruence].
  - destruct t' as [|b t']. { specialize (HC a). cbn in HC. destruct (Z.eq_dec a a); [discriminate|congruence]. }
    assert (Ha : In a (b :: t')). { apply (count_occ_In Z.eq_dec). rewrite <- HC. apply (count_occ_In Z.eq_dec). now left. }
    assert (Hb : In b (a :: t)). { apply (count_occ_In Z.eq_dec). rewrite HC. apply (count_occ_In Z.eq_dec). now left. }
    cbn [nondec] in *.
    assert (b <= a). { destruct Ha as [->|Ha]; [lia|]. pose proof (nondec_all n t' b a (proj2 Ht') Ha). lia. }
    assert (a <= b). { destruct Hb as [->|Hb]; [lia|]. pose proof (nondec_all n t a b (proj2 Ht) Hb). lia. }
    assert (a = b) by lia. subst b. f_equal. apply (IH t' a a); try tauto. intros j. specialize (HC j). cbn in HC. destruct (Z.eq_dec a j); congruence.
Qed.

Fixpoint unexpo (lo : Z) (e : list nat) : list Z := match e with [] => [] | k :: e' => repeat lo k ++ unexpo (lo + 1) e' end.
Lemma unexpo_nondec : forall e n lo, lo + zlen e <= n -> nondec n lo (unexpo lo e).
Proof.
  induction e as [|k e IH]; intros n lo H; cbn; [auto|]. assert (zlen (k :: e) = zlen e + 1) by (unfold zlen; cbn; lia).
  pose proof (zlen_nonneg e).
  assert (G : nondec n lo (unexpo (lo + 1) e)) by (apply (nondec_weaken n _ (lo + 1)); [apply IH; lia|lia]).
  induction k; cbn; auto. split; [lia|]. apply IHk; auto.
Qed.
Lemma unexpo_length : forall e lo, length (unexpo lo e) = degree e.
Proof. induction e as [|k e IH]; intros lo; cbn; auto. rewrite app_length, repeat_length, IH. reflexivity. Qed.
Lemma count_repeat a k j : count_occ Z.eq_dec (repeat a k) j = if Z.eq_dec a j then k else 0%nat.
Proof. induction k; cbn; [now destruct (Z.eq_dec a j)|]. rewrite IHk. now destruct (Z.eq_dec a j). Qed.
Lemma unexpo_count : forall e lo j, count_occ Z.eq_dec (unexpo lo e) j = if j <? lo then 0%nat else nth (Z.to_nat (j - lo)) e 0%nat.
Proof.
  induction e as [|k e IH]; intros lo j; cbn [unexpo].
  - cbn. destruct (j <? lo); auto. now destruct (Z.to_nat (j - lo)).
  - rewrite count_occ_app, count_repeat, IH. destruct (Z.eq_dec lo j) as [->|Hne].
    + rewrite Z.ltb_irrefl, Z.sub_diag. destruct (Z.ltb_spec j (j + 1)); [|lia]. cbn. lia.
    + destruct (Z.ltb_spec j lo); destruct (Z.ltb_spec j (lo + 1)); try lia; auto.
      replace (Z.to_nat (j - lo)) with (S (Z.to_nat (j - (lo + 1)))) by lia. reflexivity.
Qed.
Lemma expo_unexpo n e : 0 <= n -> length e = Z.to_nat n -> expo n (unexpo 0 e) = e.
Proof.
  intros Hn H. apply (nth_ext _ _ (count_occ Z.eq_dec (unexpo 0 e) 0) 0%nat).
  - unfold expo. now rewrite map_length, zrange_length.
  - unfold expo. rewrite map_length, zrange_length. intros i Hi. rewrite map_nth, unexpo_count.
    rewrite <- (Nat2Z.id i), zrange_nth by lia. destruct (Z.ltb_spec (Z.of_nat i) 0); [lia|]. now rewrite Z.sub_0_r.
Qed.

Lemma basis_In n d e : 0 <= n -> In e (basis n d) <-> length e = Z.to_nat n /\ (degree e <= Z.to_nat d)%nat.
Proof.
  intros Hn. unfold basis. rewrite in_map_iff. split.
  - intros (t & <- & Ht). apply tuples_In in Ht as [Hl Ht]; auto. split.
    + unfold expo. now rewrite map_length, zrange_length.
    + rewrite degree_expo; auto. intros i Hi. apply (nondec_in n t 0); auto; lia.
  - intros [Hl Hd]. exists (unexpo 0 e). split; [now apply expo_unexpo|]. apply tuples_In; auto. split.
    + now rewrite unexpo_length.
    + apply unexpo_nondec. unfold zlen. lia.
Qed.
Lemma basis_NoDup n d : 0 <= n -> NoDup (basis n d).
Proof.
  intros Hn. unfold basis.
  assert (G : forall l, NoDup l -> (forall t, In t l -> nondec n 0 t) -> NoDup (map (expo n) l)).
  { induction l as [|t l IH]; cbn; intros N H; [constructor|]. inversion N; subst. constructor.
    - rewrite in_map_iff. intros (t' & E & Ht'). apply H2. replace t with t'; auto.
      apply (nondec_inj n t' t 0 0); auto. intros j.
      destruct (Z.lt_ge_cases j 0) as [Hj|Hj]; [|destruct (Z.lt_ge_cases j n) as [Hj'|Hj']].
      + rewrite !(proj1 (count_occ_not_In Z.eq_dec _ _)); auto.
        * intros Hi. pose proof (nondec_all n t 0 j (H t (or_introl eq_refl)) Hi). lia.
        * intros Hi. pose proof (nondec_all n t' 0 j (H t' (or_intror Ht')) Hi). lia.
      + apply (f_equal (fun l => nth (Z.to_nat j) l 0%nat)) in E. unfold expo in E.
        rewrite !(nth_indep _ 0%nat (count_occ Z.eq_dec t 0)) in E by (rewrite map_length, zrange_length; lia).
        rewrite map_nth in E. rewrite zrange_nth in E by lia.
        rewrite (nth_indep _ _ (count_occ Z.eq_dec t' 0)) in E by (rewrite map_length, zrange_length; lia).
        rewrite map_nth in E. rewrite zrange_nth in E by lia. auto.
      + rewrite !(proj1 (count_occ_not_In Z.eq_dec _ _)); auto.
        * intros Hi. pose proof (nondec_all n t 0 j (H t (or_introl eq_refl)) Hi). lia.
        * intros Hi. pose proof (nondec_all n t' 0 j (H t' (or_intror Ht')) Hi). lia.
    - apply IH; auto. }
  apply G; [apply tuples_NoDup|]. intros t Ht. apply tuples_In in Ht as [_ Ht]; auto.
Qed.
Lemma basis_length n d : 0 <= n -> 0 <= d -> zlen (basis n d) = n_complete n d.
Proof. intros. unfold basis, zlen. rewrite map_length. now apply tuples_length. Qed.
Lemma basis_hd n d : hd_error (basis n d) = Some (repeat 0%nat (Z.to_nat n)).
Proof.
  unfold basis. destruct (tuples_hd n (Z.to_nat d)) as [r ->]. cbn. f_equal. unfold expo. rewrite <- (zrange_length n).
  induction (zrange n) as [|b l IHl]; [reflexivity|]. cbn. f_equal. exact IHl.
Qed.

(** ** Values over the reals *)
Open Scope R_scope.
Definition tprod (f : Z -> R) (t : list Z) : R := fold_right (fun i a => f i * a) 1 t.
Lemma pval_R f t : pval f t = tprod f t.
Proof.
  destruct t as [|i r]; [reflexivity|]. cbn.
  assert (G : forall r a, fold_left (fun a j => a * f j) r a = a * tprod f r).
  { induction r0 as [|j r0 IH]; cbn; intros a; [ring|]. rewrite IH. unfold tprod. ring. }
  apply G.
Qed.
Lemma monomial_incr (f : Z -> R) i t : forall l, NoDup l -> In i l ->
  monomial (map f l) (map (count_occ Z.eq_dec (i :: t)) l) = f i * monomial (map f l) (map (count_occ Z.eq_dec t) l).
Proof.
  induction l as [|b l IH]; intros N Hi; [destruct Hi|]. inversion N; subst. cbn [map monomial]. destruct Hi as [->|Hi].
  - cbn [count_occ]. destruct (Z.eq_dec i i); [|congruence]. rewrite <- tech_pow_Rmult.
    rewrite (map_ext_in (count_occ Z.eq_dec (i :: t)) (count_occ Z.eq_dec t)). { ring. }
    intros c Hc. cbn. destruct (Z.eq_dec i c); [subst; tauto|auto].
  - rewrite IH by auto. cbn [count_occ]. destruct (Z.eq_dec i b); [subst; tauto|]. ring.
Qed.
Lemma tprod_monomial f n t : (forall i, In i t -> (0 <= i < n)%Z) -> tprod f t = monomial (map f (zrange n)) (expo n t).
Proof.
  unfold expo. induction t as [|i t IH]; intros H.
  - cbn [tprod fold_right]. induction (zrange n) as [|b l IHl]; [reflexivity|]. change (1 = f b ^ 0 * monomial (map f l) (map (count_occ Z.eq_dec []) l)). rewrite <- IHl. cbn. ring.
  - rewrite monomial_incr; [|apply zrange_NoDup|apply zrange_In, H; now left]. rewrite <- IH by (intros; apply H; now right). reflexivity.
Qed.

Lemma dcount_eq der : forall t c, dcount der t c = (c + Z.of_nat (count_occ Z.eq_dec t der))%Z.
Proof.
  induction t as [|i t IH]; intros c; cbn; [lia|]. rewrite IH. destruct (Z.eqb_spec i der), (Z.eq_dec i der); try congruence; lia.
Qed.
Lemma npow_R x k : npow x k = x ^ Z.to_nat k.
Proof. unfold npow. induction (Z.to_nat k) as [|m IH]; [reflexivity|]. change (Nat.iter m (fun a => a *! x) (n_ofZ 1) * x = x * x ^ m). rewrite IH. ring. Qed.
Lemma dval_R f der t : dval f der t =
  let c := count_occ Z.eq_dec t der in
  INR c * tprod (fun i => if (i =? der)%Z then 1 else f i) t * f der ^ pred c.
Proof.
  cbv zeta. destruct t as [|i [|j r]].
  - cbn. ring.
  - cbn. destruct (Z.eqb_spec i der), (Z.eq_dec i der); try congruence; cbn; ring.
  - unfold dval. rewrite dcount_eq. set (t := i :: j :: r). set (c := count_occ Z.eq_dec t der). rewrite Z.add_0_l.
    assert (G : forall l a, fold_left (fun a i => a *! (if (i =? der)%Z then n_ofZ 1 else f i)) l a = a * tprod (fun i => if (i =? der)%Z then 1 else f i) l).
    { induction l as [|k l IH]; intros a; cbn [fold_left tprod fold_right]; [ring|]. rewrite IH. unfold tprod. cbn. ring. }
    destruct (Z.ltb_spec 0 (Z.of_nat c)) as [Hc|Hc].
    + rewrite G, npow_R. cbn [n_mul n_ofZ NumR]. rewrite <- INR_IZR_INZ. f_equal. f_equal. lia.
    + assert (c = 0%nat) by lia. rewrite H. cbn. ring.
Qed.
Lemma tprod_split (f : Z -> R) der x t : tprod (fun i => if (i =? der)%Z then x else f i) t =
  x ^ count_occ Z.eq_dec t der * tprod (fun i => if (i =? der)%Z then 1 else f i) t.
Proof.
  induction t as [|i t IH]; cbn [tprod fold_right count_occ]; [cbn; ring|]. fold (tprod (fun i => if (i =? der)%Z then x else f i) t).
  fold (tprod (fun i => if (i =? der)%Z then 1 else f i) t). rewrite IH.
  destruct (Z.eqb_spec i der), (Z.eq_dec i der); try congruence; cbn; ring.
Qed.
Lemma tprod_ext f g t : (forall i, In i t -> f i = g i) -> tprod f t = tprod g t.
Proof. induction t as [|i t IH]; cbn; intros H; auto. rewrite H by now left. f_equal. apply IH. auto. Qed.

(** The derivative of a row in one coordinate. *)
Lemma row_derive (f : R -> Z -> R) der t x0 :
  (forall x, f x der = x) -> (forall x i, i <> der -> In i t -> f x i = f x0 i) ->
  derivable_pt_lim (fun x => pval (f x) t) x0 (dval (f x0) der t).
Proof.
  intros Hd Ho. apply is_derive_Reals.
  apply (is_derive_ext (fun x => x ^ count_occ Z.eq_dec t der * tprod (fun i => if (i =? der)%Z then 1 else f x0 i) t)).
  - intros x. rewrite pval_R. rewrite <- tprod_split. apply tprod_ext. intros i Hi. destruct (Z.eqb_spec i der) as [->|Hne]; [now rewrite Hd|].
    symmetry. now apply Ho.
  - rewrite dval_R. cbv zeta. rewrite Hd. set (K := tprod _ t). set (c := count_occ _ _ _). auto_derive; auto. ring.
Qed.
