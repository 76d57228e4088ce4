(** Proofs for C38, C39: Smolyak indices, their number, the indices of basis functions. *)
From Coq Require Import ZArith List Bool Lia ZifyBool Permutation Sorted.
From Verif Require Import Base BaseFacts CompleteGeneric SmolyakModel SpecSmolyak SmolyakPermute.
Import ListNotations.
Open Scope Z_scope.

(** ** Sums *)
Lemma zsum_list_total l : zsum_list l = total l.
Proof.
  unfold zsum_list. assert (H : forall l a, fold_left Z.add l a = a + total l); [|now rewrite H].
  induction l0 as [|x l0 IH]; intros a; cbn; [lia|]. rewrite IH. unfold total. lia.
Qed.
Lemma total_cons x l : total (x :: l) = x + total l. Proof. reflexivity. Qed.
Lemma total_perm l m : Permutation l m -> total l = total m.
Proof. induction 1; cbn; unfold total in *; lia. Qed.
Lemma total_ge l : Forall (fun i => 1 <= i) l -> zlen l <= total l.
Proof. induction 1; [cbn; unfold zlen; cbn; lia|]. rewrite zlen_cons, total_cons. lia. Qed.
Lemma total_repeat n : total (repeat 1 n) = Z.of_nat n.
Proof. induction n; [reflexivity|]. cbn [repeat]. rewrite total_cons, IHn. lia. Qed.
Lemma total_ones l : Forall (fun i => 1 <= i) l -> total l = zlen l -> l = repeat 1 (length l).
Proof.
  induction 1 as [|x l Hx Hf IH]; intros H; auto. rewrite zlen_cons, total_cons in H. pose proof (total_ge l Hf).
  cbn [length repeat]. rewrite <- IH by lia. f_equal. lia.
Qed.
Lemma entry_le l m : Forall (fun i => 1 <= i) l -> total l <= zlen l + m -> Forall (fun i => i <= m + 1) l.
Proof.
  induction 1 as [|x l Hx Hf IH]; intros H; constructor; rewrite zlen_cons, total_cons in H; pose proof (total_ge l Hf); [lia|]. apply IH. lia.
Qed.

(** ** combinations_with_replacement *)
Lemma cwr_nil d : cwr (S d) [] = []. Proof. reflexivity. Qed.
Lemma cwr_cons d x r : cwr (S d) (x :: r) = map (cons x) (cwr d (x :: r)) ++ cwr (S d) r. Proof. reflexivity. Qed.
Lemma cwr_In d : forall pool v, StronglySorted Z.lt pool -> In v (cwr d pool) <-> length v = d /\ StronglySorted Z.le v /\ Forall (fun x => In x pool) v.
Proof.
  induction d as [|d IHd].
  - intros pool v _. split; [intros [<-|[]]; repeat constructor|]. intros (H & _). destruct v; [now left|discriminate].
  - induction pool as [|x r IHr]; intros v Hs.
    + rewrite cwr_nil. split; [intros []|]. intros (H & _ & F). destruct v; [discriminate|]. inversion F; subst. contradiction.
    + rewrite cwr_cons, in_app_iff, in_map_iff. inversion Hs as [|? ? Hs' Hx]; subst. rewrite IHr by auto. rewrite Forall_forall in Hx. split.
      * intros [(w & <- & Hw)|(H1 & H2 & H3)].
        { apply IHd in Hw as (H1 & H2 & H3); auto. split; [cbn; auto|]. split.
          - constructor; auto. eapply Forall_impl; [|exact H3]. cbn. intros y [->|Hy]; [lia|]. specialize (Hx y Hy). lia.
          - constructor; [now left|auto]. }
        { split; auto. split; auto. eapply Forall_impl; [|exact H3]. cbn. auto. }
      * intros (H1 & H2 & H3). destruct v as [|y v]; [discriminate|]. inversion H2 as [|? ? H2' Hy]; subst. inversion H3 as [|? ? Hin H3']; subst.
        destruct (Z.eq_dec y x) as [->|Hne].
        { left. exists v. split; auto. apply IHd; auto. }
        { right. destruct Hin as [->|Hin]; [congruence|]. split; auto. split; auto. constructor; auto.
          rewrite Forall_forall in *. intros z Hz. destruct (H3' z Hz) as [->|]; auto. specialize (Hy z Hz). specialize (Hx y Hin). lia. }
Qed.
Lemma cwr_NoDup d : forall pool, StronglySorted Z.lt pool -> NoDup (cwr d pool).
Proof.
  induction d as [|d IHd]; [repeat constructor; intros []|].
  induction pool as [|x r IHr]; intros Hs; [constructor|]. rewrite cwr_cons. inversion Hs as [|? ? Hs' Hx]; subst. apply NoDup_app.
  - apply FinFun.Injective_map_NoDup; auto. intros a b; congruence.
  - auto.
  - intros v Hv Hv'. apply in_map_iff in Hv as (w & <- & _). apply cwr_In in Hv' as (_ & _ & F); auto. inversion F; subst.
    rewrite Forall_forall in Hx. specialize (Hx x H1). lia.
Qed.
Lemma zrange2_In lo hi x : In x (zrange2 lo hi) <-> lo <= x < hi.
Proof. unfold zrange2. rewrite in_map_iff. split; [intros (i & <- & H); apply zrange_In in H; lia|]. intros H. exists (x - lo). rewrite zrange_In. lia. Qed.
Lemma seq_sorted n : forall a, StronglySorted lt (seq a n).
Proof. induction n as [|n IH]; intros a; cbn; constructor; auto. apply Forall_forall. intros x Hx. apply in_seq in Hx. lia. Qed.
Lemma map_sorted {A B} (P : A -> A -> Prop) (Q : B -> B -> Prop) (f : A -> B) l : (forall x y, P x y -> Q (f x) (f y)) -> StronglySorted P l -> StronglySorted Q (map f l).
Proof. intros H. induction 1 as [|x l Hs IH Hf]; cbn; constructor; auto. rewrite Forall_forall in *. intros y Hy. apply in_map_iff in Hy as (z & <- & Hz). auto. Qed.
Lemma zrange2_sorted lo hi : StronglySorted Z.lt (zrange2 lo hi).
Proof. unfold zrange2, zrange. rewrite map_map. apply (map_sorted lt); [intros; lia|apply seq_sorted]. Qed.

(** ** Permuting every sorted index *)
Lemma sorted_perm_eq a b : StronglySorted Z.le a -> StronglySorted Z.le b -> Permutation a b -> a = b.
Proof.
  intros Ha Hb Hp. destruct (sorted_min a b Ha Hp) as [|L1]; auto. destruct (sorted_min b a Hb (Permutation_sym Hp)) as [|L2]; auto.
  exfalso. apply (lex_irrefl a). eapply lex_trans; eauto.
Qed.
Lemma permute_all f vals : Forall (fun v => (2 <= length v)%nat) vals -> Forall (StronglySorted Z.le) vals -> NoDup vals ->
  exists Ls, mapM (fun val => ps <- permute val ;; Ok (filter f ps)) vals = Ok Ls /\ NoDup (concat Ls) /\
    forall p, In p (concat Ls) <-> f p = true /\ exists v, In v vals /\ Permutation v p.
Proof.
  induction vals as [|v vals IH]; intros HL HS HN.
  - exists []. split; auto. split; [constructor|]. intros p. split; [intros []|]. intros (_ & v & [] & _).
  - inversion HL; subst. inversion HS; subst. inversion HN; subst. destruct IH as (Ls & E & ND & V); auto.
    destruct (permute_spec v) as (L & EL & _ & NL & VL); auto. exists (filter f L :: Ls). cbn [mapM]. rewrite EL. cbn [bind]. rewrite E. cbn [bind].
    split; auto. cbn [concat]. split.
    + apply NoDup_app; auto; [now apply NoDup_filter|]. intros p Hp Hp'. apply filter_In in Hp as [Hp _]. apply VL in Hp. apply V in Hp' as (_ & w & Hw & Hpw).
      assert (v = w); [|congruence]. apply sorted_perm_eq; auto; [|now rewrite Hp, Hpw]. rewrite Forall_forall in H4. auto.
    + intros p. rewrite in_app_iff, filter_In, VL, V. split.
      * intros [[H Hf]|(Hf & w & Hw & Hpw)]; split; auto; [exists v|exists w]; split; auto; [now left|now right].
      * intros (Hf & w & [<-|Hw] & Hpw); [now left|right]. split; auto. exists w. auto.
Qed.

(** ** smol_inds *)
Lemma max_list_density l m : density l m -> max_list l = Ok m.
Proof.
  intros [Hin Hle]. destruct l as [|a r]; [destruct Hin|]. cbn. f_equal.
  assert (H : forall r a, fold_left Z.max r a = a \/ In (fold_left Z.max r a) r).
  { induction r0 as [|b r0 IH]; intros x; cbn; [now left|]. destruct (IH (Z.max x b)) as [->|]; auto. destruct (Z.max_spec x b) as [[_ ->]|[_ ->]]; auto. }
  assert (H' : forall r a x, In x (a :: r) -> x <= fold_left Z.max r a).
  { assert (G : forall r a, a <= fold_left Z.max r a). { induction r0 as [|b r0 IH]; intros x; cbn; [lia|]. specialize (IH (Z.max x b)). lia. }
    induction r0 as [|b r0 IH]; intros x y Hy; cbn; [destruct Hy as [->|[]]; lia|].
    destruct Hy as [->|[->|Hy]]; [specialize (G r0 (Z.max y b)); lia|specialize (G r0 (Z.max x y)); lia|apply IH; now right]. }
  specialize (H' r a m Hin). assert (fold_left Z.max r a <= m); [|lia].
  destruct (H r a) as [->|Hr]; apply Hle; [now left|now right].
Qed.
Lemma fits_spec : forall el l, length el = length l ->
  forallb (fun b => b) (map2 (fun e m => e <=? m + 1) el l) = true <-> Forall2 (fun e m => e <= m + 1) el l.
Proof.
  induction el as [|e el IH]; intros [|m l] H; cbn in *; try discriminate; [split; auto|]. injection H as H. rewrite andb_true_iff, IH by auto. split.
  - intros [H1 H2]. constructor; auto. lia.
  - intros H1. inversion H1; subst. split; auto. lia.
Qed.

Lemma perm_forall {A} (P : A -> Prop) l m : Permutation l m -> Forall P l -> Forall P m.
Proof. intros Hp. rewrite !Forall_forall. intros H x Hx. apply H. eapply Permutation_in; [symmetry; exact Hp|auto]. Qed.

Lemma poss_spec d m v : 0 <= m -> 0 <= d ->
  In v (filter (fun el => (d <? zsum_list el) && (zsum_list el <=? d + m)) (cwr (Z.to_nat d) (zrange2 1 (m + 2)))) <->
  iso_index d m v /\ d < total v /\ StronglySorted Z.le v.
Proof.
  intros Hm Hd. rewrite filter_In, cwr_In by apply zrange2_sorted. rewrite zsum_list_total. unfold iso_index, zlen. split.
  - intros ((HL & HS & HF) & H). split; [|split; [lia|auto]]. split; [lia|]. split; [|lia]. eapply Forall_impl; [|exact HF]. cbn. intros x Hx. apply zrange2_In in Hx. lia.
  - intros ((HL & HF & HT) & Hlt & HS). split; [|lia]. split; [lia|]. split; auto.
    assert (HE : Forall (fun i => i <= m + 1) v) by (apply entry_le; auto; unfold zlen; lia).
    rewrite Forall_forall in *. intros x Hx. apply zrange2_In. specialize (HF x Hx). specialize (HE x Hx). lia.
Qed.

Lemma smol_core d m f : 2 <= d -> 0 <= m -> f (repeat 1 (Z.to_nat d)) = true ->
  exists Ls, mapM (fun val => ps <- permute val ;; Ok (filter f ps))
     (filter (fun el => (d <? zsum_list el) && (zsum_list el <=? d + m)) (cwr (Z.to_nat d) (zrange2 1 (m + 2)))) = Ok Ls /\
    NoDup (concat (Ls ++ [[repeat 1 (Z.to_nat d)]])) /\
    forall v, In v (concat (Ls ++ [[repeat 1 (Z.to_nat d)]])) <-> iso_index d m v /\ f v = true.
Proof.
  intros Hd Hm Hf. set (vals := filter _ _).
  destruct (permute_all f vals) as (Ls & E & ND & V).
  - apply Forall_forall. intros v Hv. apply poss_spec in Hv; [|lia|lia]. destruct Hv as ((H & _) & _). unfold zlen in H. lia.
  - apply Forall_forall. intros v Hv. apply poss_spec in Hv; [|lia|lia]. tauto.
  - apply NoDup_filter, cwr_NoDup, zrange2_sorted.
  - exists Ls. split; auto. rewrite concat_app. cbn [concat]. rewrite app_nil_r.
    assert (V' : forall v, In v (concat Ls) <-> (iso_index d m v /\ f v = true) /\ d < total v).
    { intros v. rewrite V. split.
      - intros (H1 & w & Hw & Hp). apply poss_spec in Hw; [|lia|lia]. destruct Hw as ((A & B & C) & D & _). rewrite <- (total_perm w v Hp).
        repeat split; auto; [unfold zlen in *; now rewrite <- (Permutation_length Hp)|eapply perm_forall; eauto|now rewrite <- (total_perm w v Hp)].
      - intros (((A & B & C) & D) & F). split; auto. exists (sort v). split; [|apply sort_perm]. apply poss_spec; [lia|lia|].
        pose proof (sort_perm v) as Hp. rewrite (total_perm _ _ Hp). split; [|split; auto; apply sort_sorted].
        unfold iso_index. rewrite (total_perm _ _ Hp). repeat split; auto; [unfold zlen in *; now rewrite (Permutation_length Hp)|]. eapply perm_forall; [symmetry; exact Hp|auto]. }
    assert (HO : iso_index d m (repeat 1 (Z.to_nat d))).
    { split; [unfold zlen; rewrite repeat_length; lia|]. rewrite total_repeat. split; [|lia]. apply Forall_forall. intros x Hx. apply repeat_spec in Hx. lia. }
    split.
    + apply NoDup_app; auto; [repeat constructor; intros []|]. intros v Hv [<-|[]]. apply V' in Hv as [_ Hv]. rewrite total_repeat in Hv. lia.
    + intros v. rewrite in_app_iff, V'. cbn [In]. split.
      * intros [[H _]|[<-|[]]]; auto.
      * intros [(A & B & C) D]. pose proof (total_ge v B). rewrite A in H. destruct (Z.eq_dec (total v) d) as [Et|].
        { right. left. rewrite (total_ones v B) by lia. f_equal. unfold zlen in A. lia. }
        { left. repeat split; auto. lia. }
Qed.

Theorem smol_inds_iso d m : 2 <= d -> 0 <= m -> exists L, smol_inds d (MuInt m) = Ok L /\ NoDup L /\ forall v, In v L <-> iso_index d m v.
Proof.
  intros Hd Hm. unfold smol_inds. cbn [bind]. destruct (smol_core d m (fun _ => true) Hd Hm eq_refl) as (Ls & E & ND & V).
  rewrite (mapM_ext permute (fun val => ps <- permute val ;; Ok (filter (fun _ => true) ps))). { rewrite E. cbn [bind]. eexists. split; [reflexivity|]. split; auto. intros v. rewrite V. tauto. }
  intros v _. destruct (permute v) as [a|e]; cbn [bind]; auto. f_equal. induction a as [|x a IH]; cbn; [reflexivity|]. now rewrite <- IH.
Qed.
Theorem smol_inds_aniso d l m : 2 <= d -> zlen l = d -> density l m -> Forall (fun x => 0 <= x) l ->
  exists L, smol_inds d (MuArr l) = Ok L /\ NoDup L /\ forall v, In v L <-> aniso_index d l m v.
Proof.
  intros Hd Hl Hm Hpos. unfold smol_inds. rewrite Hl, Z.eqb_refl. cbn [negb bind]. rewrite (max_list_density l m Hm). cbn [bind].
  assert (0 <= m) by (rewrite Forall_forall in Hpos; apply Hpos, Hm).
  destruct (smol_core d m (fun el => forallb (fun b => b) (map2 (fun e m => e <=? m + 1) el l)) Hd H) as (Ls & E & ND & V).
  { apply fits_spec; [rewrite repeat_length; unfold zlen in Hl; lia|]. assert (Hlen : length l = Z.to_nat d) by (unfold zlen in Hl; lia). rewrite <- Hlen.
    clear - Hpos. induction Hpos; cbn; constructor; auto. lia. }
  rewrite E. cbn [bind]. eexists. split; [reflexivity|]. split; auto. intros v. rewrite V. unfold aniso_index. split; intros [A B]; split; auto.
  - apply fits_spec; auto. destruct A as (A & _). unfold zlen in *. lia.
  - apply fits_spec; auto. destruct A as (A & _). unfold zlen in *. lia.
Qed.
Theorem smol_inds_wrong_length d l : zlen l <> d -> smol_inds d (MuArr l) = Err ValueErr.
Proof. intros H. unfold smol_inds. destruct (zlen l =? d) eqn:E; [lia|]. reflexivity. Qed.
