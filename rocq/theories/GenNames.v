(** The variable names of the generated programs are distinct. *)
From Coq Require Import ZArith List Bool Ascii String DecimalString DecimalNat Lia.
From Verif Require Import Base GenModel.
Import ListNotations.
Open Scope nat_scope.
Open Scope string_scope.

Definition is_dig (c : ascii) : bool := let n := nat_of_ascii c in Nat.leb 48 n && Nat.leb n 57.
Fixpoint nodigit (s : string) : bool := match s with "" => true | String c r => negb (is_dig c) && nodigit r end.
Fixpoint alldigit (s : string) : bool := match s with "" => true | String c r => is_dig c && alldigit r end.
Definition nondig (s : string) : Prop := match s with "" => True | String c _ => is_dig c = false end.
Definition dighead (s : string) : Prop := match s with "" => True | String c _ => is_dig c = true end.
Fixpoint head_part (s : string) : string :=
  match s with "" => "" | String c r => if is_dig c then "" else String c (head_part r) end.
Fixpoint tail_part (s : string) : string :=
  match s with "" => "" | String c r => if is_dig c then s else tail_part r end.

Lemma head_app p s : nodigit p = true -> dighead s -> head_part (p ++ s) = p.
Proof.
  intros Hp Hs. induction p as [|c p IH]; cbn in *.
  - destruct s as [|c s]; cbn in *; auto. now rewrite Hs.
  - apply andb_prop in Hp as [H1 H2]. destruct (is_dig c); [discriminate|]. now rewrite IH.
Qed.
Lemma tail_app p s : nodigit p = true -> dighead s -> tail_part (p ++ s) = s.
Proof.
  intros Hp Hs. induction p as [|c p IH]; cbn in *.
  - destruct s as [|c s]; cbn in *; auto. now rewrite Hs.
  - apply andb_prop in Hp as [H1 H2]. destruct (is_dig c); [discriminate|]. now rewrite IH.
Qed.
Lemma dig_split a : forall b s t, alldigit a = true -> alldigit b = true -> nondig s -> nondig t ->
  a ++ s = b ++ t -> a = b /\ s = t.
Proof.
  induction a as [|c a IH]; intros [|d b] s t Ha Hb Hs Ht E; cbn in *; auto.
  - apply andb_prop in Hb as [H1 _]. subst s. cbn in Hs. congruence.
  - apply andb_prop in Ha as [H1 _]. rewrite <- E in Ht. cbn in Ht. congruence.
  - apply andb_prop in Ha as [_ Ha]. apply andb_prop in Hb as [_ Hb]. injection E as -> E.
    destruct (IH b s t) as [-> ->]; auto.
Qed.

Lemma uint_digits u : alldigit (NilEmpty.string_of_uint u) = true.
Proof. induction u; cbn; auto. Qed.
Lemma dec_digits i : alldigit (dec i) = true.
Proof. apply uint_digits. Qed.
Lemma dec_inj i j : dec i = dec j -> i = j.
Proof.
  unfold dec. intros H. apply Unsigned.to_uint_inj.
  assert (E : Some (Nat.to_uint i) = Some (Nat.to_uint j)).
  { rewrite <- (NilEmpty.usu (Nat.to_uint i)), <- (NilEmpty.usu (Nat.to_uint j)). now rewrite H. }
  congruence.
Qed.
Lemma dec_cons i : exists c r, dec i = String c r /\ is_dig c = true.
Proof.
  pose proof (dec_digits i) as D. unfold dec in *. assert (N : Nat.to_uint i <> Decimal.Nil).
  { intros E. pose proof (Unsigned.of_to i) as O. rewrite E in O. cbn in O. subst i. discriminate E. }
  destruct (Nat.to_uint i); try easy; cbn in *; eauto.
Qed.
Lemma dec_head i s : dighead (dec i ++ s).
Proof. destruct (dec_cons i) as (c & r & -> & H). exact H. Qed.

Lemma app_nil_str s : s ++ "" = s.
Proof. induction s as [|c s IH]; cbn; auto. now rewrite IH. Qed.
Lemma app_assoc_str a b c : (a ++ b) ++ c = a ++ (b ++ c).
Proof. induction a as [|x a IH]; cbn; auto. now rewrite IH. Qed.

(** ** Names of dimension [i]: a prefix, the number of the dimension, a suffix. *)
Definition nm (p : string) (i : nat) (s : string) : string := p ++ dec i ++ s.
Lemma nm1_nm p i : nm1 p i = nm p i "".
Proof. unfold nm1, nm. now rewrite app_nil_str. Qed.
Lemma nm2_nm p i j : nm2 p i j = nm p i ("_" ++ dec j).
Proof. reflexivity. Qed.

(** The prefix of the weights of derivative order [l]. *)
Definition phi_prefix (l : Z) : string :=
  if (l =? 0)%Z then "Φ_" else if (l =? 1)%Z then "d_Φ_" else "d_" ++ dec (Z.to_nat l) ++ "_Φ_".
Lemma phi_nm l i j : phi l i j = nm (phi_prefix l) i ("_" ++ dec j).
Proof.
  unfold phi, phi_prefix, nm, nm2. destruct (Z.eqb l 0); auto. destruct (Z.eqb l 1); auto.
  now rewrite !app_assoc_str.
Qed.

Definition good (p : string) : Prop := nodigit p = true /\ p <> "d_" \/ exists l, p = "d_" ++ dec l ++ "_Φ_".
Lemma good_phi l : good (phi_prefix l).
Proof.
  unfold phi_prefix. destruct (Z.eqb l 0); [left; split; [reflexivity|discriminate]|].
  destruct (Z.eqb l 1); [left; split; [reflexivity|discriminate]|]. right. eauto.
Qed.
Lemma phi_prefix_inj l m : (0 <= l)%Z -> (0 <= m)%Z -> phi_prefix l = phi_prefix m -> l = m.
Proof.
  intros Hl Hm. unfold phi_prefix.
  assert (X : forall a, "Φ_" <> "d_" ++ a) by discriminate.
  assert (Y : forall n, "d_Φ_" <> "d_" ++ dec n ++ "_Φ_").
  { intros n. destruct (dec_cons n) as (c & r & -> & D). intros E. injection E as E _. subst c. discriminate D. }
  destruct (Z.eqb_spec l 0), (Z.eqb_spec m 0), (Z.eqb_spec l 1), (Z.eqb_spec m 1); subst; intros E;
    try discriminate; try lia; try (now apply X in E); try (now symmetry in E; apply X in E);
    try (now apply Y in E); try (now symmetry in E; apply Y in E).
  assert (E' : dec (Z.to_nat l) ++ "_Φ_" = dec (Z.to_nat m) ++ "_Φ_") by (injection E; auto).
  apply dig_split in E' as [E' _]; try apply dec_digits; try reflexivity. apply dec_inj in E'. lia.
Qed.

Lemma head_nm p i s : nodigit p = true -> head_part (nm p i s) = p.
Proof. intros H. apply head_app; auto. apply dec_head. Qed.
Lemma head_good p i s : good p -> head_part (nm p i s) = p \/ head_part (nm p i s) = "d_".
Proof.
  intros [[H _]|[l ->]]; [left; now apply head_nm|]. right. unfold nm. rewrite !app_assoc_str.
  apply head_app; auto. apply dec_head.
Qed.

Lemma nm_inj p q i j s t : good p -> good q -> nondig s -> nondig t -> nm p i s = nm q j t -> p = q /\ i = j /\ s = t.
Proof.
  intros Hp Hq Hs Ht E.
  destruct Hp as [[Hp Np]|[l ->]], Hq as [[Hq Nq]|[m ->]].
  - assert (p = q) by (rewrite <- (head_nm p i s), <- (head_nm q j t); congruence). subst q.
    assert (E' : dec i ++ s = dec j ++ t).
    { rewrite <- (tail_app p (dec i ++ s)), <- (tail_app p (dec j ++ t)); auto using dec_head. now f_equal. }
    apply dig_split in E' as [E' ->]; auto using dec_digits. apply dec_inj in E'. auto.
  - exfalso. apply Np. rewrite <- (head_nm p i s), E by auto. unfold nm. rewrite !app_assoc_str.
    apply head_app; auto. apply dec_head.
  - exfalso. apply Nq. rewrite <- (head_nm q j t), <- E by auto. unfold nm. rewrite !app_assoc_str.
    apply head_app; auto. apply dec_head.
  - unfold nm in E. rewrite !app_assoc_str in E.
    assert (E1 : dec l ++ "_Φ_" ++ dec i ++ s = dec m ++ "_Φ_" ++ dec j ++ t) by (injection E; auto).
    apply dig_split in E1 as [E1 E2]; auto using dec_digits; try reflexivity. apply dec_inj in E1. subst m.
    assert (E3 : dec i ++ s = dec j ++ t) by (injection E2; auto).
    apply dig_split in E3 as [E3 ->]; auto using dec_digits. apply dec_inj in E3. auto.
Qed.

(** A name without digits is not a name of a dimension. *)
Lemma nodigit_nm x p i s : nodigit x = true -> x <> nm p i s.
Proof.
  intros H ->. unfold nm in H. destruct (dec_cons i) as (c & r & E & D). rewrite E in H.
  induction p as [|d p IH]; cbn in H.
  - rewrite D in H. discriminate.
  - apply andb_prop in H as [_ H]. auto.
Qed.

(** ** Names of values *)
Definition digits_of (oo : list Z) : string := fold_right (fun l s => dec (Z.to_nat l) ++ s) "" oo.
Lemma val_name_digits oo : val_name oo = "val_" ++ digits_of oo.
Proof.
  unfold val_name. generalize "val_". induction oo as [|l oo IH]; intros p; cbn.
  - now rewrite app_nil_str.
  - rewrite IH. now rewrite app_assoc_str.
Qed.
Lemma digits_head oo : dighead (digits_of oo).
Proof. destruct oo as [|l oo]; cbn; auto. apply dec_head. Qed.
Lemma head_val oo : head_part (val_name oo) = "val_".
Proof. rewrite val_name_digits. apply head_app; auto. apply digits_head. Qed.
Lemma dec_one l : l < 10 -> exists c, dec l = String c "".
Proof. intros H. do 10 (destruct l as [|l]; [cbn; eauto|]). lia. Qed.
Lemma val_name_inj oo : forall oo', List.length oo = List.length oo' ->
  Forall (fun l => (0 <= l < 10)%Z) oo -> Forall (fun l => (0 <= l < 10)%Z) oo' -> val_name oo = val_name oo' -> oo = oo'.
Proof.
  intros oo' L F F' E. rewrite !val_name_digits in E. assert (E' : digits_of oo = digits_of oo') by (injection E; auto).
  clear E. revert oo' L F F' E'. induction oo as [|l oo IH]; intros [|m oo'] L F F' E; try discriminate; auto.
  inversion F as [|? ? Hl F1]; inversion F' as [|? ? Hm F2]; subst. cbn in E.
  destruct (dec_one (Z.to_nat l)) as [c Ec]; [lia|]. destruct (dec_one (Z.to_nat m)) as [d Ed]; [lia|].
  assert (dec (Z.to_nat l) = dec (Z.to_nat m)) by (rewrite Ec, Ed in *; cbn in E; injection E; intros; subst; auto).
  assert (l = m) by (apply dec_inj in H; lia). subst m. f_equal. apply IH; auto.
  rewrite Ec in E. cbn in E. injection E; auto.
Qed.
