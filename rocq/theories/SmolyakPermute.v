(** Proofs for C37: [permute]. *)
From Coq Require Import ZArith List Bool Lia Permutation Sorted.
From Verif Require Import Base BaseFacts SmolyakModel SpecSmolyak.
Import ListNotations.
Open Scope Z_scope.

(** ** Sorting *)
Lemma insert_perm x l : Permutation (insert x l) (x :: l).
Proof. induction l as [|y l IH]; cbn; auto. destruct (x <=? y); auto. rewrite IH. apply perm_swap. Qed.
Lemma sort_perm l : Permutation (sort l) l.
Proof. induction l; cbn; auto. rewrite insert_perm. now constructor. Qed.
Lemma insert_sorted x l : StronglySorted Z.le l -> StronglySorted Z.le (insert x l).
Proof.
  induction 1 as [|y l Hs IH Hf]; cbn; [repeat constructor|]. destruct (Z.leb_spec x y).
  - constructor; [constructor; auto|]. constructor; auto. eapply Forall_impl; [|exact Hf]. lia.
  - constructor; auto. rewrite Forall_forall in *. intros z Hz. apply (Permutation_in _ (insert_perm x l)) in Hz as [<-|Hz]; [lia|auto].
Qed.
Lemma sort_sorted l : StronglySorted Z.le (sort l).
Proof. induction l; cbn; [constructor|]. now apply insert_sorted. Qed.

(** ** Lexicographic order *)
Lemma lex_length l m : lex_lt l m -> length l = length m.
Proof. induction 1; cbn; auto. Qed.
Lemma lex_irrefl l : ~ lex_lt l l.
Proof. induction l; intros H; inversion H; subst; [lia|auto]. Qed.
Lemma lex_trans l : forall m n, lex_lt l m -> lex_lt m n -> lex_lt l n.
Proof.
  induction l as [|x l IH]; intros m n H1 H2; [inversion H1|]. destruct m as [|y m]; [inversion H1|]. destruct n as [|z n]; [inversion H2|].
  pose proof (lex_length _ _ H1) as L1. pose proof (lex_length _ _ H2) as L2. cbn in L1, L2.
  inversion H1; subst; inversion H2; subst; try (apply lex_hd; lia). apply lex_tl. eauto.
Qed.
Fixpoint lexb (l m : list Z) : bool :=
  match l, m with
  | x :: l', y :: m' => ((x <? y) && (length l' =? length m')%nat) || ((x =? y) && lexb l' m')
  | _, _ => false
  end.
Lemma lexb_spec l : forall m, lexb l m = true <-> lex_lt l m.
Proof.
  induction l as [|x l IH]; intros [|y m]; cbn; split; intros H; try discriminate; try (inversion H; fail).
  - apply orb_true_iff in H as [H|H]; apply andb_true_iff in H as [H1 H2].
    + apply lex_hd; [lia|]. now apply Nat.eqb_eq.
    + apply Z.eqb_eq in H1 as ->. apply lex_tl. now apply IH.
  - apply orb_true_iff. inversion H; subst; [left|right]; apply andb_true_iff; split; try lia; try (now apply Nat.eqb_eq). now apply IH.
Qed.

Lemma sorted_min s : forall p, StronglySorted Z.le s -> Permutation s p -> s = p \/ lex_lt s p.
Proof.
  induction s as [|x s IH]; intros p Hs Hp; [left; now rewrite (Permutation_nil Hp)|].
  inversion Hs; subst. destruct p as [|e p]; [symmetry in Hp; now apply Permutation_nil in Hp|].
  assert (He : x <= e). { assert (In e (x :: s)) as [->|Hi] by (apply (Permutation_in _ (Permutation_sym Hp)); now left); [lia|]. rewrite Forall_forall in H2. auto. }
  destruct (Z.eq_dec x e) as [->|].
  - apply Permutation_cons_inv in Hp. destruct (IH p H1 Hp) as [->|L]; [now left|right; now apply lex_tl].
  - right. apply lex_hd; [lia|]. apply Permutation_length in Hp. cbn in Hp. lia.
Qed.
Lemma sorted_max s : forall p, StronglySorted (fun x y => y <= x) s -> Permutation s p -> s = p \/ lex_lt p s.
Proof.
  induction s as [|x s IH]; intros p Hs Hp; [left; now rewrite (Permutation_nil Hp)|].
  inversion Hs; subst. destruct p as [|e p]; [symmetry in Hp; now apply Permutation_nil in Hp|].
  assert (He : e <= x). { assert (In e (x :: s)) as [->|Hi] by (apply (Permutation_in _ (Permutation_sym Hp)); now left); [lia|]. rewrite Forall_forall in H2. auto. }
  destruct (Z.eq_dec x e) as [->|].
  - apply Permutation_cons_inv in Hp. destruct (IH p H1 Hp) as [->|L]; [now left|right; now apply lex_tl].
  - right. apply lex_hd; [lia|]. apply Permutation_length in Hp. cbn in Hp. lia.
Qed.

(** ** One step *)
Lemma lset_app {A} (pre : list A) x r v : lset (pre ++ x :: r) (length pre) v = pre ++ v :: r.
Proof. induction pre; cbn; auto. now rewrite IHpre. Qed.
Lemma find_j_spec a x idx : x < nth idx a 0 -> forall j, (idx <= j)%nat -> (forall k, (idx < k <= j)%nat -> nth k a 0 <= x) -> find_j a x j = Ok idx.
Proof.
  intros Hx. induction j as [|j IH]; intros Hj Hk; cbn [find_j].
  - assert (idx = 0)%nat as -> by lia. destruct (Z.ltb_spec x (nth 0 a 0)); [auto|lia].
  - destruct (Nat.eq_dec idx (S j)) as [->|].
    + destruct (Z.ltb_spec x (nth (S j) a 0)); [auto|lia].
    + destruct (Z.ltb_spec x (nth (S j) a 0)); [specialize (Hk (S j)); lia|]. apply IH; [lia|]. intros; apply Hk; lia.
Qed.
Lemma pivot_split x : forall suf, StronglySorted (fun x y => y <= x) suf -> suf <> [] -> x < hd 0 suf ->
  exists s1 y s2, suf = s1 ++ y :: s2 /\ x < y /\ Forall (fun z => z <= x) s2 /\ Forall (fun z => y <= z) s1.
Proof.
  induction suf as [|h t IH]; intros Hs Hne Hh; [congruence|]. inversion Hs; subst. cbn in Hh.
  destruct t as [|h' t'].
  - exists [], h, []. repeat split; auto.
  - destruct (Z.lt_ge_cases x h').
    + destruct IH as (s1 & y & s2 & E & Hy & F2 & F1); auto; [discriminate|]. exists (h :: s1), y, s2. rewrite E. repeat split; auto. constructor; auto.
      rewrite E in H2. rewrite Forall_forall in H2. apply H2. apply in_elt.
    + exists [], h, (h' :: t'). repeat split; auto. inversion H1; subst. constructor; auto. eapply Forall_impl; [|exact H5]. cbn. lia.
Qed.

(** The next list, described without indices. *)
Inductive next : list Z -> list Z -> Prop :=
| next_intro pre x s1 y s2 : x < y -> Forall (fun z => z <= x) s2 -> Forall (fun z => y <= z) s1 ->
    StronglySorted (fun x y => y <= x) (s1 ++ y :: s2) ->
    next (pre ++ x :: s1 ++ y :: s2) (pre ++ y :: rev (s1 ++ x :: s2)).

Lemma scan_spec : forall i a, (S i < length a)%nat -> StronglySorted (fun x y => y <= x) (skipn (S i) a) ->
  (exists a', scan a i = Ok (Some a') /\ next a a') \/ (scan a i = Ok None /\ StronglySorted (fun x y => y <= x) a).
Proof.
  induction i as [|i IH]; intros a Hi Hs.
  - destruct a as [|x suf]; [cbn in Hi; lia|]. cbn [skipn] in Hs. cbn [length] in Hi. cbn [scan nth].
    replace (nth 0 suf 0) with (hd 0 suf) by (destruct suf; auto). destruct (Z.ltb_spec x (hd 0 suf)).
    + left. destruct (pivot_split x suf Hs) as (s1 & y & s2 & -> & Hy & F2 & F1); [destruct suf; [cbn in Hi; lia|discriminate]|auto|].
      exists ([] ++ y :: rev (s1 ++ x :: s2)). split; [|change (x :: s1 ++ y :: s2) with ([] ++ x :: s1 ++ y :: s2); now constructor].
      rewrite (find_j_spec _ x (S (length s1))).
      * cbn [bind]. cbn [lset nth]. rewrite app_nth2, Nat.sub_diag by lia. cbn [nth].
        rewrite lset_app. cbn [firstn skipn app]. reflexivity.
      * cbn [nth]. rewrite app_nth2, Nat.sub_diag by lia. auto.
      * cbn [length]. rewrite app_length. cbn. lia.
      * intros k Hk. destruct k as [|k]; [lia|]. cbn [nth]. rewrite app_nth2 by lia. cbn [length] in Hk. rewrite app_length in Hk. cbn [length] in Hk.
        destruct (k - length s1)%nat as [|m] eqn:Em; [lia|]. cbn [nth]. rewrite Forall_forall in F2. apply F2. apply nth_In. lia.
    + right. split; auto. constructor; auto. destruct suf as [|h t]; [constructor|]. cbn in H. inversion Hs; subst. constructor; auto. eapply Forall_impl; [|exact H3]. cbn. lia.
  - destruct (nth_error a (S i)) as [x|] eqn:Ex; [|apply nth_error_None in Ex; lia].
    apply nth_error_split in Ex as (pre & suf & -> & Hp). 
    assert (Hsk : skipn (S (S i)) (pre ++ x :: suf) = suf).
    { rewrite skipn_app, skipn_all2 by lia. replace (S (S i) - length pre)%nat with 1%nat by lia. reflexivity. }
    rewrite Hsk in Hs. rewrite app_length in Hi. cbn [length] in Hi. cbn [scan]. 
    rewrite !app_nth2 by lia. replace (S i - length pre)%nat with 0%nat by lia. replace (S (S i) - length pre)%nat with 1%nat by lia.
    cbn [nth]. replace (nth 0 suf 0) with (hd 0 suf) by (destruct suf; auto). destruct (Z.ltb_spec x (hd 0 suf)).
    + left. destruct (pivot_split x suf Hs) as (s1 & y & s2 & -> & Hy & F2 & F1); [destruct suf; [cbn in Hi; lia|discriminate]|auto|].
      exists (pre ++ y :: rev (s1 ++ x :: s2)). split; [|now constructor].
      rewrite (find_j_spec _ x (length pre + S (length s1))).
      * cbn [bind]. rewrite (app_nth2 pre) by lia. replace (length pre + S (length s1) - length pre)%nat with (S (length s1)) by lia. cbn [nth].
        rewrite app_nth2, Nat.sub_diag by lia. cbn [nth]. rewrite <- Hp, lset_app.
        replace (pre ++ y :: s1 ++ y :: s2) with ((pre ++ y :: s1) ++ y :: s2) by (rewrite <- app_assoc; auto).
        replace (length pre + S (length s1))%nat with (length (pre ++ y :: s1)) by (rewrite app_length; cbn; lia). rewrite lset_app.
        rewrite <- app_assoc. cbn [app]. rewrite firstn_app, skipn_app.
        replace (S (length pre) - length pre)%nat with 1%nat by lia. rewrite firstn_all2, skipn_all2 by lia. cbn [firstn skipn app]. rewrite <- app_assoc. reflexivity.
      * rewrite (app_nth2 pre) by lia. replace (length pre + S (length s1) - length pre)%nat with (S (length s1)) by lia. cbn [nth].
        rewrite app_nth2, Nat.sub_diag by lia. auto.
      * rewrite app_length. cbn [length]. rewrite app_length. cbn. lia.
      * intros k Hk. rewrite (app_nth2 pre) by lia. destruct (k - length pre)%nat as [|k'] eqn:Ek; [lia|]. cbn [nth]. rewrite app_nth2 by lia.
        rewrite app_length in Hk. cbn [length] in Hk. rewrite app_length in Hk. cbn [length] in Hk.
        destruct (k' - length s1)%nat as [|m] eqn:Em; [lia|]. cbn [nth]. rewrite Forall_forall in F2. apply F2. apply nth_In. lia.
    + apply IH; [rewrite app_length; cbn; lia|]. rewrite skipn_app. rewrite skipn_all2 by lia. replace (S i - length pre)%nat with 0%nat by lia. cbn [skipn app].
      constructor; auto. destruct suf as [|h t]; [constructor|]. cbn in H. inversion Hs; subst. constructor; auto. eapply Forall_impl; [|exact H3]. cbn. lia.
Qed.

Lemma next_perm a b : next a b -> Permutation a b.
Proof.
  destruct 1. apply Permutation_app_head. rewrite <- Permutation_rev.
  change (x :: s1 ++ y :: s2) with ((x :: s1) ++ y :: s2). rewrite <- Permutation_middle. apply perm_skip. cbn. apply Permutation_middle.
Qed.
Lemma app_lex pre l m : lex_lt l m -> lex_lt (pre ++ l) (pre ++ m).
Proof. induction pre; cbn; auto. intros. apply lex_tl. auto. Qed.
Lemma next_lt a b : next a b -> lex_lt a b.
Proof. destruct 1. apply app_lex. apply lex_hd; auto. rewrite rev_length, !app_length. cbn. auto. Qed.

Lemma rev_sorted s : StronglySorted (fun x y => y <= x) s -> StronglySorted Z.le (rev s).
Proof.
  induction 1 as [|x s Hs IH Hf]; cbn; [constructor|].
  clear Hs. assert (Hf' : Forall (fun y => y <= x) (rev s)) by now apply Forall_rev. clear Hf.
  induction IH as [|y t Ht IHt Hy]; cbn; [repeat constructor|]. inversion Hf'; subst. constructor; auto. apply Forall_app. split; auto.
Qed.
Lemma sorted_replace x y s1 s2 : x < y -> Forall (fun z => z <= x) s2 -> StronglySorted (fun x y => y <= x) (s1 ++ y :: s2) ->
  StronglySorted (fun x y => y <= x) (s1 ++ x :: s2).
Proof.
  intros Hxy F2. induction s1 as [|z s1 IH]; cbn; intros H; inversion H; subst.
  - constructor; auto.
  - constructor; auto. rewrite Forall_app in *. destruct H3 as [A B]. inversion B; subst. split; auto. constructor; auto. lia.
Qed.

Lemma next_minimal a b p : next a b -> Permutation a p -> lex_lt a p -> b = p \/ lex_lt b p.
Proof.
  intros H. revert p. destruct H as [pre x s1 y s2 Hxy F2 F1 Hs]. induction pre as [|c pre IH]; intros p Hp Hl; cbn [app] in *.
  - destruct p as [|e p]; [inversion Hl|]. inversion Hl; subst.
    + assert (In e (s1 ++ y :: s2)) as Hin.
      { assert (In e (x :: s1 ++ y :: s2)) as [->|Hi] by (apply (Permutation_in _ (Permutation_sym Hp)); now left); [lia|auto]. }
      assert (y <= e). { apply in_app_or in Hin as [Hi|[->|Hi]]; [rewrite Forall_forall in F1; auto|lia|]. rewrite Forall_forall in F2. specialize (F2 e Hi). lia. }
      destruct (Z.eq_dec y e) as [->|].
      * assert (Hp' : Permutation (s1 ++ x :: s2) p).
        { apply (Permutation_cons_inv (a := e)). rewrite <- Hp. transitivity (e :: x :: s1 ++ s2); [apply perm_skip; symmetry; apply Permutation_middle|].
          apply (Permutation_middle (x :: s1) s2 e). }
        destruct (sorted_min (rev (s1 ++ x :: s2)) p) as [->|L].
        { apply rev_sorted. eapply sorted_replace; eauto. }
        { now rewrite <- Permutation_rev. }
        { now left. } { right. now apply lex_tl. }
      * right. apply lex_hd; [lia|]. rewrite rev_length. rewrite <- H4, !app_length. reflexivity.
    + exfalso. apply Permutation_cons_inv in Hp. destruct (sorted_max _ _ Hs Hp) as [E|L]; [rewrite E in Hl; now apply lex_irrefl in Hl|].
      apply (lex_irrefl p). eapply lex_trans; eauto.
  - destruct p as [|e p]; [inversion Hl|]. inversion Hl; subst.
    + right. apply lex_hd; auto. rewrite <- H4. apply Permutation_length. symmetry. apply (next_perm (pre ++ x :: s1 ++ y :: s2)). now constructor.
    + apply Permutation_cons_inv in Hp. match goal with H : lex_lt (pre ++ _) p |- _ => destruct (IH p Hp H) as [->|L] end; [now left|right; now apply lex_tl].
Qed.

(** ** The loop *)
Fixpoint ins_all (x : Z) (l : list Z) : list (list Z) :=
  match l with [] => [[x]] | y :: r => (x :: l) :: map (cons y) (ins_all x r) end.
Fixpoint all_perms (l : list Z) : list (list Z) :=
  match l with [] => [[]] | x :: r => flat_map (ins_all x) (all_perms r) end.
Lemma ins_all_In x p1 : forall p2, In (p1 ++ x :: p2) (ins_all x (p1 ++ p2)).
Proof. induction p1 as [|y p1 IH]; intros p2; cbn. - destruct p2; cbn; auto. - right. apply in_map. auto. Qed.
Lemma ins_all_length x l : length (ins_all x l) = S (length l).
Proof. induction l; cbn; auto. now rewrite map_length, IHl. Qed.
Lemma all_perms_In l : forall p, Permutation l p -> In p (all_perms l).
Proof.
  induction l as [|x l IH]; intros p Hp; cbn; [rewrite (Permutation_nil Hp); now left|].
  assert (In x p) by (apply (Permutation_in _ Hp); now left). apply in_split in H as (p1 & p2 & ->).
  apply Permutation_cons_app_inv in Hp. apply in_flat_map. exists (p1 ++ p2). split; [auto|apply ins_all_In].
Qed.
Lemma ins_all_len x l p : In p (ins_all x l) -> length p = S (length l).
Proof. revert p; induction l as [|y l IH]; cbn; intros p [<-|H]; auto; [destruct H|]. apply in_map_iff in H as (q & <- & Hq). cbn. now rewrite (IH _ Hq). Qed.
Lemma all_perms_len l : Forall (fun p => length p = length l) (all_perms l) /\ length (all_perms l) = fact (length l).
Proof.
  induction l as [|x l [F IH]]; cbn [all_perms]; [split; [repeat constructor|reflexivity]|]. split.
  - apply Forall_forall. intros p Hp. apply in_flat_map in Hp as (q & Hq & Hp). rewrite (ins_all_len _ _ _ Hp). rewrite Forall_forall in F. cbn. now rewrite (F q Hq).
  - change (fact (length (x :: l))) with (S (length l) * fact (length l))%nat. rewrite <- IH. clear IH. induction F as [|p ps Hp F IHF]; cbn [flat_map]; [cbn; lia|].
    rewrite app_length, IHF, ins_all_length, Hp. cbn [length]. lia.
Qed.

Definition above (a0 a : list Z) : nat := length (filter (lexb a) (all_perms a0)).
Lemma filter_le {A} (f g : A -> bool) l : (forall x, f x = true -> g x = true) -> (length (filter f l) <= length (filter g l))%nat.
Proof. intros H. induction l as [|x l IH]; cbn; auto. destruct (f x) eqn:E; [rewrite (H _ E); cbn; lia|]. destruct (g x); cbn; lia. Qed.
Lemma filter_lt {A} (f g : A -> bool) l x : (forall x, f x = true -> g x = true) -> In x l -> f x = false -> g x = true -> (length (filter f l) < length (filter g l))%nat.
Proof.
  intros H. induction l as [|y l IH]; cbn; [tauto|]. intros [->|Hi] Hf Hg.
  - rewrite Hf, Hg. cbn. pose proof (filter_le f g l H). lia.
  - specialize (IH Hi Hf Hg). destruct (f y) eqn:E; [rewrite (H _ E); cbn; lia|]. destruct (g y); cbn; lia.
Qed.

Lemma loop_spec a0 : (2 <= length a0)%nat -> forall fuel a, Permutation a0 a -> (above a0 a < fuel)%nat ->
  exists rest, permute_loop fuel a = Ok rest /\ StronglySorted lex_lt (a :: rest) /\
    forall p, In p rest <-> Permutation a0 p /\ lex_lt a p.
Proof.
  intros Hlen. induction fuel as [|f IH]; intros a Hp Hf; [lia|]. cbn [permute_loop].
  pose proof (Permutation_length Hp) as HL.
  destruct (scan_spec (length a - 2) a) as [(a' & E & Hn)|[E Hs]].
  - lia.
  - replace (S (length a - 2)) with (length a - 1)%nat by lia. destruct (skipn (length a - 1) a) as [|z [|z' t]] eqn:Es; [constructor|repeat constructor|].
    exfalso. pose proof (skipn_length (length a - 1) a) as Hk. rewrite Es in Hk. cbn in Hk. lia.
  - rewrite E. cbn [bind]. pose proof (next_lt _ _ Hn) as Lt. assert (Hp' : Permutation a0 a') by (rewrite Hp; now apply next_perm).
    destruct (IH a' Hp') as (rest & ER & SR & VR).
    { assert (above a0 a' < above a0 a)%nat; [|lia]. apply (filter_lt _ _ _ a').
      - intros p H. apply lexb_spec. apply lexb_spec in H. eapply lex_trans; eauto.
      - now apply all_perms_In.
      - destruct (lexb a' a') eqn:El; auto. apply lexb_spec in El. now apply lex_irrefl in El.
      - now apply lexb_spec. }
    rewrite ER. cbn [bind]. exists (a' :: rest). split; auto. split.
    + constructor; auto. constructor; auto. inversion SR; subst. eapply Forall_impl; [|exact H2]. intros p Hlt. eapply lex_trans; eauto.
    + intros p. cbn [In]. rewrite VR. split.
      * intros [->|[H1 H2]]; [auto|]. split; auto. eapply lex_trans; eauto.
      * intros [H1 H2]. assert (Hap : Permutation a p) by (now rewrite <- Hp). destruct (next_minimal _ _ _ Hn Hap H2) as [->|H3]; auto.
  - rewrite E. cbn [bind]. exists []. split; auto. split; [repeat constructor|]. intros p. split; [intros []|]. intros [H1 H2].
    assert (Hap : Permutation a p) by (now rewrite <- Hp). destruct (sorted_max _ _ Hs Hap) as [E2|H3]; [rewrite E2 in H2; now apply lex_irrefl in H2|].
    apply (lex_irrefl p). eapply lex_trans; eauto.
Qed.

Theorem permute_spec a : (2 <= length a)%nat ->
  exists L, permute a = Ok L /\ StronglySorted lex_lt L /\ NoDup L /\ forall p, In p L <-> Permutation a p.
Proof.
  intros Hl. unfold permute. pose proof (Permutation_length (sort_perm a)) as HL. destruct (Nat.ltb_spec (length (sort a)) 2); [lia|].
  destruct (loop_spec a Hl (fact (length (sort a))) (sort a)) as (rest & E & S & V).
  - symmetry. apply sort_perm.
  - rewrite HL. destruct (all_perms_len a) as [_ <-]. unfold above.
    assert (Hle : forall {A} (f : A -> bool) l, (length (filter f l) <= length l)%nat).
    { intros A f l. induction l as [|x l IH]; cbn; auto. destruct (f x); cbn; lia. }
    assert (Hlt : forall {A} (f : A -> bool) x l, In x l -> f x = false -> (length (filter f l) < length l)%nat).
    { intros A f x l. induction l as [|y l IH]; cbn; [tauto|]. intros [->|Hi] Hf; [rewrite Hf; pose proof (Hle _ f l); lia|]. specialize (IH Hi Hf). destruct (f y); cbn; lia. }
    apply (Hlt _ _ (sort a)).
    + apply all_perms_In. symmetry. apply sort_perm.
    + destruct (lexb (sort a) (sort a)) eqn:El; auto. apply lexb_spec in El. now apply lex_irrefl in El.
  - rewrite E. cbn [bind]. exists (sort a :: rest). split; auto. split; auto. split.
    + clear E V. induction S as [|x l Hs IH Hf]; constructor; auto. intros Hi. rewrite Forall_forall in Hf. specialize (Hf x Hi). now apply lex_irrefl in Hf.
    + intros p. cbn [In]. rewrite V. split.
      * intros [<-|[H1 _]]; auto. symmetry. apply sort_perm.
      * intros Hp. assert (Hsp : Permutation (sort a) p) by (rewrite sort_perm; auto). destruct (sorted_min _ _ (sort_sorted a) Hsp) as [->|Hlt]; auto.
Qed.
