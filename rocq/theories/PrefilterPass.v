(** The passes of the prefilter over the directions of an array, for any number type. *)
From Coq Require Import ZArith List Bool Lia ZifyBool.
From Verif Require Import Base BaseFacts SplineModel PrefilterModel PrefilterGeneric.
Import ListNotations.
Open Scope Z_scope.

Lemma app_inj_len {A} (a a' b b' : list A) :
  length a = length a' -> a ++ b = a' ++ b' -> a = a' /\ b = b'.
Proof.
  revert a'; induction a; destruct a'; cbn; intros L E; try discriminate; auto.
  inversion E; subst. destruct (IHa a') as [-> ->]; auto.
Qed.

Lemma app_inj_len_r {A} (a a' b b' : list A) :
  length b = length b' -> a ++ b = a' ++ b' -> a = a' /\ b = b'.
Proof.
  intros L E. apply app_inj_len; auto.
  assert (length (a ++ b) = length (a' ++ b')) by now rewrite E. rewrite !app_length in H. lia.
Qed.

(** The line through [idx] in the direction following the first [ns] indices. *)
Definition line (ns : nat) (suf idx : list Z) (i : Z) : list Z :=
  firstn ns idx ++ [i] ++ skipn ns idx ++ suf.

Lemma line_inj ns suf suf' idx idx' i i' :
  length idx = length idx' -> length suf = length suf' ->
  line ns suf idx i = line ns suf' idx' i' -> idx = idx' /\ i = i' /\ suf = suf'.
Proof.
  intros L LS E. unfold line in E.
  apply app_inj_len in E as [E1 E2]; [|rewrite !firstn_length; lia].
  cbn in E2. inversion E2; subst.
  apply app_inj_len in H1 as [E3 E4]; [|rewrite !skipn_length; lia].
  rewrite <- (firstn_skipn ns idx), E1, E3, firstn_skipn. auto.
Qed.

Lemma line_app ip iq suf i : line (length ip) suf (ip ++ iq) i = ip ++ i :: iq ++ suf.
Proof.
  unfold line. rewrite firstn_app, firstn_all, Nat.sub_diag, skipn_app, skipn_all, Nat.sub_diag. cbn.
  now rewrite app_nil_r.
Qed.

Section Gen.
Context {T : Type} {NT : Num T}.

(** Where the data of a pass comes from: D (first pass) or the array itself. *)
Definition rd (src : option (arr T)) (C : arr T) (idx : list Z) : T :=
  acell (match src with Some D => D | None => C end) idx.

Section Loop.
Variables (S : Type) (pr : S -> arr T) (J : S -> Prop) (body : list Z -> S -> res S).
Variables (sh sizes suf : list Z) (ns : nat) (M : Z) (del : T) (src : option (arr T)).
Hypothesis HM : 1 <= M.
Hypothesis body_ok : forall idx s, inb sizes idx = true -> J s -> ashape (pr s) = sh ->
  resrel (fun s' g => J s' /\ Ln (pr s) (line ns suf idx) (M + 2) (pr s') g)
    (body idx s) (sol M del (fun j => rd src (pr s) (line ns suf idx j))).

Definition lres C idx := sol M del (fun j => rd src C (line ns suf idx j)).
Definition on_line (l : list (list Z)) (j : list Z) :=
  exists idx i, In idx l /\ 0 <= i < M + 2 /\ j = line ns suf idx i.

(** State [s] after the lines in [l] have been processed, starting from [C0]. *)
Definition after C0 l s :=
  J s /\ ashape (pr s) = sh /\
  (forall idx g i, In idx l -> lres C0 idx = Ok g -> 0 <= i < M + 2 -> acell (pr s) (line ns suf idx i) = g i) /\
  (forall j, ~ on_line l j -> acell (pr s) j = acell C0 j).

Lemma loop_step C0 l s idx g :
  (forall x, In x l -> inb sizes x = true) -> inb sizes idx = true -> ~ In idx l ->
  after C0 l s -> lres C0 idx = Ok g ->
  exists s', body idx s = Ok s' /\ after C0 (l ++ [idx]) s'.
Proof.
  intros Hl Hi Hn (HJ & HS & HA & HF) Hg.
  pose proof (body_ok idx s Hi HJ HS) as HB.
  assert (E : resrel (fun g g' => forall i, 0 <= i < M + 2 -> g i = g' i)
                (sol M del (fun j => rd src (pr s) (line ns suf idx j))) (lres C0 idx)).
  { apply sol_ext; auto. intros i Hi'. unfold rd. destruct src; auto. apply HF.
    intros (idx' & i' & Hin & _ & E). apply line_inj in E as [-> _]; auto.
    apply Hl in Hin. apply inb_length in Hin, Hi. congruence. }
  rewrite Hg in E. apply resrel_ok in E as [g' [E Eg]]. rewrite E in HB.
  apply resrel_ok in HB as [s' [Es [HJ' (HS' & HL & HO)]]].
  exists s'. split; auto. split; [auto|]. split; [congruence|]. split.
  - intros idx2 g2 i Hin Hg2 Hi2. apply in_app_iff in Hin as [Hin|[<-|[]]].
    + rewrite HO. eapply HA; eauto. intros i' _ E2. apply line_inj in E2 as [-> _]; auto.
      apply Hl in Hin. apply inb_length in Hin, Hi. congruence.
    + rewrite HL by auto. rewrite Hg in Hg2. inversion Hg2; subst. auto.
  - intros j Hj. rewrite HO. apply HF. intros (a & b & c & d & e). apply Hj. exists a, b.
    rewrite in_app_iff. auto.
    intros i Hi2 ->. apply Hj. exists idx, i. rewrite in_app_iff. cbn. auto.
Qed.

Lemma loop_ok s0 :
  J s0 -> ashape (pr s0) = sh ->
  (forall idx, inb sizes idx = true -> exists g, lres (pr s0) idx = Ok g) ->
  exists s', nest sizes body s0 = Ok s' /\ after (pr s0) (all_idx sizes) s'.
Proof.
  intros HJ HS HG. rewrite nest_foldM.
  apply foldM_inv.
  - repeat split; auto. intros ? ? ? [].
  - intros don idx rest s E HA.
    assert (Hin : forall x, In x (don ++ idx :: rest) -> inb sizes x = true).
    { intros x Hx. rewrite <- E in Hx. now apply In_all_idx in Hx. }
    assert (Hidx : inb sizes idx = true) by (apply Hin; apply in_elt).
    destruct (HG idx Hidx) as [g Hg].
    eapply loop_step; eauto.
    + intros; apply Hin. apply in_app_iff; auto.
    + pose proof (NoDup_all_idx sizes) as N. rewrite E in N. apply NoDup_remove_2 in N.
      rewrite in_app_iff in N. auto.
Qed.

Lemma loop_err s0 idx :
  J s0 -> ashape (pr s0) = sh -> inb sizes idx = true ->
  lres (pr s0) idx = Err ZeroDivErr -> nest sizes body s0 = Err ZeroDivErr.
Proof.
  intros HJ HS Hidx He. rewrite nest_foldM.
  assert (Hin : forall x, In x (all_idx sizes) -> inb sizes x = true) by (intros; now apply In_all_idx).
  assert (HI : In idx (all_idx sizes)) by now apply In_all_idx.
  pose proof (NoDup_all_idx sizes) as N.
  assert (G : forall l don s, (forall x, In x don -> inb sizes x = true) ->
     (forall x, In x l -> inb sizes x = true) -> NoDup (don ++ l) -> In idx l ->
     after (pr s0) don s -> foldM (fun s idx => body idx s) l s = Err ZeroDivErr).
  { induction l as [|a l IH]; cbn; intros don s H1 H2 ND HInl HA. contradiction.
    assert (Ha : inb sizes a = true) by auto.
    assert (Hn : ~ In a don) by (apply NoDup_remove_2 in ND; rewrite in_app_iff in ND; auto).
    destruct (lres (pr s0) a) as [g|e] eqn:Eg.
    - destruct (loop_step (pr s0) don s a g) as [s' [Es HA']]; auto. rewrite Es. cbn.
      apply (IH (don ++ [a])); auto.
      + intros x Hx. apply in_app_iff in Hx as [Hx|[<-|[]]]; auto.
      + now rewrite <- app_assoc.
      + destruct HInl as [->|]; auto. congruence.
    - destruct HA as (HJ' & HS' & _ & HF). pose proof (body_ok a s Ha HJ' HS') as HB.
      assert (E : resrel (fun g g' => forall i, 0 <= i < M + 2 -> g i = g' i)
                (sol M del (fun j => rd src (pr s) (line ns suf a j))) (lres (pr s0) a)).
      { apply sol_ext; auto. intros i Hi'. unfold rd. destruct src; auto. apply HF.
        intros (idx' & i' & Hin' & _ & E). apply line_inj in E as [-> _]; auto.
        apply H1 in Hin'. apply inb_length in Hin', Ha. congruence. }
      rewrite Eg in E.
      destruct (sol M del _); cbn in E; [contradiction|]. subst.
      destruct (body a s); cbn in HB; [contradiction|]. subst. cbn. f_equal.
      eapply zd_sol. exact Eg. }
  apply (G (all_idx sizes) []); auto.
  repeat split; auto. intros ? ? ? [].
Qed.

End Loop.

Lemma line_ok_line sh1 post1 comps M pre post suf idx :
  inb comps suf = true -> length sh1 = length pre ->
  inb (map (fun m => m + 2) pre ++ post) idx = true ->
  sh1 = map (fun m => m + 2) pre -> post1 = map (fun m => m + 2) post ->
  line_ok (sh1 ++ (M + 2) :: post1 ++ comps) (line (length pre) suf idx) (M + 2).
Proof.
  intros Hs Hl Hi -> ->. split.
  - intros i Hi2. unfold line.
    rewrite <- (firstn_skipn (length pre) idx) in Hi.
    pose proof (inb_length _ _ Hi) as L. rewrite firstn_skipn, app_length, map_length in L.
    assert (L1 : length (map (fun m => m + 2) pre) = length (firstn (length pre) idx)).
    { rewrite firstn_length, map_length. lia. }
    rewrite inb_app in Hi by auto. apply andb_true_iff in Hi as [H1 H2].
    rewrite inb_app by auto. rewrite H1. cbn [andb app]. cbn [inb].
    rewrite inb_app; [|rewrite map_length, skipn_length; lia].
    rewrite Hs. rewrite andb_true_r.
    assert (H3 : inb (map (fun m => m + 2) post) (skipn (length pre) idx) = true).
    { revert H2. generalize (skipn (length pre) idx). clear. induction post; destruct l; cbn; auto.
      intros H. rewrite IHpost by lia. lia. }
    rewrite H3. lia.
  - intros i j E. apply line_inj in E; tauto.
Qed.

(** The values read by the pass are inside the source array. *)
Definition src_ok (src : option (arr T)) (C : arr T) (ns : nat) (suf sizes : list Z) (M : Z) : Prop :=
  forall idx i, inb sizes idx = true -> 0 <= i < M ->
    inb (ashape (match src with Some D => D | None => C end)) (line ns suf idx i) = true.

Definition pass_after C0 src del M pre post suf C' :=
  ashape C' = ashape C0 /\
  (forall idx g i, inb (map (fun m => m + 2) pre ++ post) idx = true ->
     sol M del (fun j => rd src C0 (line (length pre) suf idx j)) = Ok g ->
     0 <= i < M + 2 -> acell C' (line (length pre) suf idx i) = g i) /\
  (forall j, (forall idx i, inb (map (fun m => m + 2) pre ++ post) idx = true -> 0 <= i < M + 2 ->
                j <> line (length pre) suf idx i) -> acell C' j = acell C0 j).

Section Pass.
Variables (del : T) (M : Z) (src : option (arr T)) (pre post suf comps : list Z) (C : arr T).
Hypothesis HM : 1 <= M.
Hypothesis HC : ashape C = map (fun m => m + 2) pre ++ (M + 2) :: map (fun m => m + 2) post ++ comps.
Hypothesis Hs : inb comps suf = true.
Hypothesis Hsrc : forall D, src = Some D -> src_ok src C (length pre) suf (map (fun m => m + 2) pre ++ post) M.

Let sizes := map (fun m => m + 2) pre ++ post.
Let lr idx := sol M del (fun j => rd src C (line (length pre) suf idx j)).

Lemma data_ok Cc idx i :
  ashape Cc = ashape C -> inb sizes idx = true -> 0 <= i < M ->
  aget (match src with Some D => D | None => Cc end) (line (length pre) suf idx i) =
  Ok (rd src Cc (line (length pre) suf idx i)).
Proof.
  intros HS Hi Hi2. apply aget_ok. destruct src as [D|] eqn:E.
  - apply (Hsrc D); auto.
  - rewrite HS, HC.
    destruct (line_ok_line (map (fun m => m + 2) pre) (map (fun m => m + 2) post) comps M pre post suf idx) as [H _]; auto.
    now rewrite map_length. apply H. lia.
Qed.

Lemma pass_body idx (s : arr T * arr T) :
  inb sizes idx = true -> ashape (fst s) = [M + 2; 4] -> ashape (snd s) = ashape C ->
  resrel (fun s' g => ashape (fst s') = [M + 2; 4] /\ Ln (snd s) (line (length pre) suf idx) (M + 2) (snd s') g)
    (let '(b, C) := s in
            let ln i := firstn (length pre) idx ++ [i] ++ skipn (length pre) idx ++ suf in
            let data i := aget (match src with Some D => D | None => C end) (ln i) in
            find_coefs_1d del data C ln (M + 2) b)
    (sol M del (fun j => rd src (snd s) (line (length pre) suf idx j))).
Proof.
  intros Hi Hb HS. destruct s as [b Cc]. cbn in Hb, HS. cbv zeta.
  apply find_coefs_t; auto.
  - intros i Hi2. cbn [snd]. apply data_ok; auto.
  - rewrite HS, HC. apply line_ok_line with (post := post); auto. now rewrite map_length.
Qed.

Lemma filter_pass_ok :
  (forall idx, inb sizes idx = true -> exists g, lr idx = Ok g) ->
  exists C', filter_pass del M src pre post suf (M + 2) C = Ok C' /\ pass_after C src del M pre post suf C'.
Proof.
  intros HG. unfold filter_pass. fold sizes.
  destruct (loop_ok (arr T * arr T) snd (fun s => ashape (fst s) = [M + 2; 4])
     (fun idx (s : arr T * arr T) =>
            let '(b, C) := s in
            let ln i := firstn (length pre) idx ++ [i] ++ skipn (length pre) idx ++ suf in
            let data i := aget (match src with Some D => D | None => C end) (ln i) in
            find_coefs_1d del data C ln (M + 2) b)
     (ashape C) sizes suf (length pre) M del src HM) with (s0 := (azeros [M + 2; 4], C))
     as [[b' C'] [E (HJ & HS & HA & HF)]]; auto.
  - intros. apply pass_body; auto.
  - cbv zeta in *. rewrite E. cbn. exists C'. split; auto. cbn in HS, HA, HF. split; [auto|]. split.
    + intros idx g i Hi Hg Hi2. apply HA; auto. now apply In_all_idx.
    + intros j Hj. apply HF. intros (idx & i & H1 & H2 & ->). apply In_all_idx in H1.
      exact (Hj idx i H1 H2 eq_refl).
Qed.

Lemma filter_pass_err idx :
  inb sizes idx = true -> lr idx = Err ZeroDivErr ->
  filter_pass del M src pre post suf (M + 2) C = Err ZeroDivErr.
Proof.
  intros Hi HG. unfold filter_pass. fold sizes.
  pose proof (loop_err (arr T * arr T) snd (fun s => ashape (fst s) = [M + 2; 4])
     (fun idx (s : arr T * arr T) =>
            let '(b, C) := s in
            let ln i := firstn (length pre) idx ++ [i] ++ skipn (length pre) idx ++ suf in
            let data i := aget (match src with Some D => D | None => C end) (ln i) in
            find_coefs_1d del data C ln (M + 2) b)
     (ashape C) sizes suf (length pre) M del src HM) as E.
  cbv zeta in *. rewrite (E) with (idx := idx); auto.
  intros. apply pass_body; auto.
Qed.

End Pass.

Lemma all_or_err sizes (f : list Z -> res (Z -> T)) :
  (forall idx, zd (f idx)) ->
  (forall idx, inb sizes idx = true -> exists g, f idx = Ok g) \/
  (exists idx, inb sizes idx = true /\ f idx = Err ZeroDivErr).
Proof.
  intros Z. assert (H : (forall idx, In idx (all_idx sizes) -> exists g, f idx = Ok g) \/
    (exists idx, In idx (all_idx sizes) /\ f idx = Err ZeroDivErr)).
  { induction (all_idx sizes) as [|a l IH]. left; intros ? [].
    destruct (f a) as [g|e] eqn:E.
    - destruct IH as [IH|(idx & H1 & H2)].
      + left. intros idx [<-|H]; eauto.
      + right. exists idx; cbn; auto.
    - right. exists a. cbn. split; auto. rewrite E. f_equal. eapply Z; eauto. }
  destruct H as [H|(idx & H1 & H2)].
  - left; intros; apply H; now apply In_all_idx.
  - right. exists idx. split; auto. now apply In_all_idx.
Qed.

(** Two arrays agreeing on the cells a pass reads agree, after it, on the cells of its lines. *)
Definition agree (sizes suf : list Z) (C1 C2 : arr T) : Prop :=
  forall idx, inb sizes idx = true -> acell C1 (idx ++ suf) = acell C2 (idx ++ suf).

(** Only cells ending in [suf] may have changed. *)
Definition frame (n : nat) (suf : list Z) (C C' : arr T) : Prop :=
  forall j, (forall idx, length idx = n -> j <> idx ++ suf) -> acell C' j = acell C j.

Lemma line_frame pre M post suf idx i j :
  inb (map (fun m => m + 2) pre ++ post) idx = true ->
  (forall idx, length idx = length (pre ++ M :: post) -> j <> idx ++ suf) ->
  j <> line (length pre) suf idx i.
Proof.
  intros Hi Hj. unfold line. rewrite (app_assoc [i]), app_assoc. apply Hj.
  apply inb_length in Hi. rewrite app_length, map_length in Hi.
  rewrite !app_length, firstn_length, skipn_length. cbn. lia.
Qed.

Lemma split_idx (pre : list Z) n post idx :
  inb (pre ++ n :: post) idx = true ->
  exists ip i iq, idx = ip ++ i :: iq /\ length ip = length pre /\ inb (pre ++ post) (ip ++ iq) = true /\ 0 <= i < n.
Proof.
  intros H. pose proof (inb_length _ _ H) as L. rewrite app_length in L. cbn in L.
  destruct (skipn (length pre) idx) as [|i iq] eqn:E.
  { apply (f_equal (@length Z)) in E. rewrite skipn_length in E. cbn in E. lia. }
  exists (firstn (length pre) idx), i, iq.
  rewrite <- E, firstn_skipn. split; auto.
  assert (LL : length pre = length (firstn (length pre) idx)) by (rewrite firstn_length; lia).
  split; [auto|]. rewrite <- (firstn_skipn (length pre) idx), E in H.
  rewrite inb_app in H by auto. cbn in H. rewrite inb_app by auto. lia.
Qed.

Lemma filter_pass_agree del M src pre post suf comps C1 C2 :
  1 <= M ->
  ashape C1 = map (fun m => m + 2) pre ++ (M + 2) :: map (fun m => m + 2) post ++ comps ->
  ashape C2 = ashape C1 ->
  inb comps suf = true ->
  (forall D, src = Some D -> src_ok src C1 (length pre) suf (map (fun m => m + 2) pre ++ post) M) ->
  (src = None -> agree (map (fun m => m + 2) pre ++ M :: post) suf C1 C2) ->
  resrel (fun C1' C2' => ashape C1' = ashape C1 /\ ashape C2' = ashape C1 /\
            agree (map (fun m => m + 2) pre ++ (M + 2) :: post) suf C1' C2' /\
            frame (length (pre ++ M :: post)) suf C1 C1' /\ frame (length (pre ++ M :: post)) suf C2 C2')
    (filter_pass del M src pre post suf (M + 2) C1) (filter_pass del M src pre post suf (M + 2) C2).
Proof.
  intros HM HS1 HS2 Hsuf Hsrc HAg.
  assert (Hsrc2 : forall D, src = Some D -> src_ok src C2 (length pre) suf (map (fun m => m + 2) pre ++ post) M).
  { intros D E. specialize (Hsrc D E). subst src. exact Hsrc. }
  assert (HX : forall idx, inb (map (fun m => m + 2) pre ++ post) idx = true ->
    resrel (fun g g' => forall i, 0 <= i < M + 2 -> g i = g' i)
      (sol M del (fun j => rd src C1 (line (length pre) suf idx j)))
      (sol M del (fun j => rd src C2 (line (length pre) suf idx j)))).
  { intros idx Hi. apply sol_ext; auto. intros i Hi2. unfold rd. destruct src as [D|]; auto.
    unfold line. specialize (HAg eq_refl (firstn (length pre) idx ++ i :: skipn (length pre) idx)).
    rewrite <- !app_assoc in HAg. apply HAg.
    pose proof (inb_length _ _ Hi) as L. rewrite app_length, map_length in L.
    rewrite <- (firstn_skipn (length pre) idx) in Hi.
    rewrite inb_app in Hi by (rewrite firstn_length, map_length; lia).
    rewrite inb_app by (rewrite firstn_length, map_length; lia). cbn [inb]. lia. }
  destruct (all_or_err (map (fun m => m + 2) pre ++ post)
     (fun idx => sol M del (fun j => rd src C1 (line (length pre) suf idx j)))) as [H|(idx & H1 & H2)].
  - intros; apply zd_sol.
  - destruct (filter_pass_ok del M src pre post suf comps C1) as [C1' [E1 (S1 & A1 & F1)]]; auto.
    destruct (filter_pass_ok del M src pre post suf comps C2) as [C2' [E2 (S2 & A2 & F2)]]; auto; try congruence.
    + intros idx Hi. destruct (H idx Hi) as [g Hg]. specialize (HX idx Hi). rewrite Hg in HX.
      destruct (sol M del (fun j => rd src C2 _)) as [g'|]; cbn in HX; [eauto|contradiction].
    + rewrite E1, E2. cbn. split; [auto|]. split; [congruence|]. split.
      2: { split; intros j Hj; [apply F1|apply F2]; intros idx i Hi Hi2; eapply line_frame; eauto. }
      intros idx0 Hi0. apply split_idx in Hi0 as (ip & i & iq & -> & L & Hi0 & Hi).
      rewrite map_length in L.
      assert (EQ : (ip ++ i :: iq) ++ suf = line (length pre) suf (ip ++ iq) i).
      { rewrite <- L, line_app, <- app_assoc. reflexivity. }
      rewrite EQ. destruct (H _ Hi0) as [g Hg]. specialize (HX _ Hi0). rewrite Hg in HX.
      destruct (sol M del (fun j => rd src C2 _)) as [g'|] eqn:Eg'; cbn in HX; [|contradiction].
      rewrite (A1 _ g), (A2 _ g') by auto. auto.
  - rewrite (filter_pass_err del M src pre post suf comps C1) with (idx := idx) by auto.
    specialize (HX idx H1). cbv beta in H2. rewrite H2 in HX.
    destruct (sol M del (fun j => rd src C2 _)) as [|e] eqn:Eg'; cbn in HX; [contradiction|]. subst e.
    rewrite (filter_pass_err del M src pre post suf comps C2) with (idx := idx); auto; try congruence.
Qed.

Definition all2 (l : list Z) := map (fun m => m + 2) l.

Lemma adim_mid (C : arr T) a x b : ashape C = a ++ x :: b -> adim C (zlen a) = Ok x.
Proof.
  intros E. unfold adim, lget, zlen. rewrite E, Nat2Z.id.
  destruct (Z.of_nat (length a) <? 0) eqn:E2; [lia|].
  rewrite nth_error_app2, Nat.sub_diag by lia. reflexivity.
Qed.

Lemma zlen_all2 l : zlen (all2 l) = zlen l.
Proof. apply zlen_map. Qed.

Lemma src_first (D C : arr T) M rest comps suf :
  ashape D = M :: rest ++ comps -> inb comps suf = true -> src_ok (Some D) C 0 suf rest M.
Proof.
  intros E Hs idx i Hi Hi2. unfold line. cbn. rewrite E. cbn.
  rewrite inb_app by (symmetry; now apply inb_length). rewrite Hi, Hs. lia.
Qed.

Lemma filter_passes_agree d dinvs D suf comps don todo C1 C2 :
  Forall (fun m => 1 <= m) todo ->
  ashape C1 = all2 (don ++ todo) ++ comps -> ashape C2 = ashape C1 ->
  inb comps suf = true ->
  (don = [] -> ashape D = todo ++ comps) ->
  (don <> [] -> agree (all2 don ++ todo) suf C1 C2) ->
  don ++ todo <> [] ->
  resrel (fun C1' C2' => ashape C1' = ashape C1 /\ ashape C2' = ashape C1 /\
            agree (all2 (don ++ todo)) suf C1' C2' /\
            frame (length (don ++ todo)) suf C1 C1' /\ frame (length (don ++ todo)) suf C2 C2')
    (filter_passes d dinvs D suf don todo C1) (filter_passes d dinvs D suf don todo C2).
Proof.
  revert don C1 C2; induction todo as [|M rest IH]; intros don C1 C2 HT HS1 HS2 Hsuf HD HA HN; cbn.
  - rewrite app_nil_r in *. split; [auto|]. split; [auto|].
    specialize (HA HN). repeat split; auto.
  - destruct (lget dinvs _) as [del|e]; cbn; auto.
    unfold all2 in HS1. rewrite map_app, <- app_assoc in HS1. cbn in HS1.
    assert (E1 : adim C1 (zlen don) = Ok (M + 2)).
    { rewrite <- (zlen_all2 don). eapply adim_mid. exact HS1. }
    assert (E2 : adim C2 (zlen don) = Ok (M + 2)).
    { rewrite <- (zlen_all2 don). eapply adim_mid. rewrite HS2. exact HS1. }
    rewrite E1, E2. cbn. inversion HT; subst.
    eapply resrel_bind.
    + apply filter_pass_agree with (comps := comps); auto.
      * intros D0 ED. destruct don; [|discriminate]. inversion ED; subst.
        eapply src_first; eauto.
      * intros En. apply HA. destruct don; [discriminate|]. discriminate.
    + cbv beta. intros C1' C2' (S1 & S2 & A & F1 & F2).
      pose proof (IH (don ++ [M]) C1' C2') as R.
      rewrite <- app_assoc in R. cbn [app] in R.
      eapply resrel_mono.
      * apply R; auto.
        -- rewrite S1, HS1. unfold all2. rewrite map_app, <- app_assoc. reflexivity.
        -- congruence.
        -- intros E. apply app_eq_nil in E as [_ E]. discriminate.
        -- intros _. unfold all2. rewrite map_app, <- app_assoc. exact A.
      * cbv beta. intros C1'' C2'' (S1' & S2' & A' & F1' & F2').
        split; [congruence|]. split; [congruence|]. split; [auto|].
        split; intros j Hj; [rewrite F1', F1|rewrite F2', F2]; auto.
Qed.

(** Trailing dimensions. *)
Lemma filter_vv0_agree grid D comps suf C1 C2 ns :
  ns <> [] -> Forall (fun m => 1 <= m) ns -> length ns = length grid ->
  ashape D = ns ++ comps -> ashape C1 = all2 ns ++ comps -> ashape C2 = ashape C1 ->
  inb comps suf = true ->
  resrel (fun C1' C2' => ashape C1' = ashape C1 /\ ashape C2' = ashape C1 /\
            agree (all2 ns) suf C1' C2' /\
            frame (length ns) suf C1 C1' /\ frame (length ns) suf C2 C2')
    (filter_scalar grid D suf C1) (filter_scalar grid D suf C2).
Proof.
  intros Hne HT HL HD HS1 HS2 Hsuf. unfold filter_scalar.
  destruct ((zlen grid <? 1) || (4 <? zlen grid)); cbn; auto.
  destruct (mapM dinv grid) as [dinvs|e]; cbn; auto.
  rewrite HD, <- HL, firstn_app, firstn_all, Nat.sub_diag, firstn_O, app_nil_r.
  apply (filter_passes_agree (zlen grid) dinvs D suf comps [] ns); auto.
  intros []; auto.
Qed.

Lemma frame_other n suf suf' (C C' : arr T) idx :
  frame n suf C C' -> length idx = n -> length suf = length suf' -> suf' <> suf ->
  acell C' (idx ++ suf') = acell C (idx ++ suf').
Proof.
  intros F L LS N. apply F. intros idx' L' E. apply app_inj_len in E as [_ E]; congruence.
Qed.

Lemma aeq_of_agree sizes comps (C1 C2 : arr T) :
  ashape C1 = sizes ++ comps -> ashape C2 = ashape C1 ->
  (forall suf, inb comps suf = true -> agree sizes suf C1 C2) -> aeq C1 C2.
Proof.
  intros E1 E2 H. split; auto. intros idx Hi. rewrite E1 in Hi.
  pose proof (inb_length _ _ Hi) as L. rewrite app_length in L.
  rewrite <- (firstn_skipn (length sizes) idx) in Hi |- *.
  rewrite inb_app in Hi by (rewrite firstn_length; lia).
  apply andb_true_iff in Hi as [H1 H2]. apply H; auto.
Qed.

(** Nothing of the previous content of the output array survives. *)
Lemma filter_inplace_garbage grid D C1 C2 :
  grid <> [] -> Forall (fun m => 1 <= m) (firstn (length grid) (ashape D)) ->
  (length grid <= length (ashape D) <= length grid + 1)%nat ->
  ashape C1 = coef_shape (length grid) (ashape D) -> ashape C2 = ashape C1 ->
  resrel (fun C1' C2' => ashape C1' = ashape C1 /\ aeq C1' C2') (filter_inplace grid D C1) (filter_inplace grid D C2).
Proof.
  intros Hg HT HL HS1 HS2. unfold filter_inplace, andim. rewrite HS2.
  destruct (negb _ || _); cbn; auto.
  set (ns := firstn (length grid) (ashape D)) in *. set (comps := skipn (length grid) (ashape D)) in *.
  assert (HD : ashape D = ns ++ comps) by (symmetry; apply firstn_skipn).
  assert (Ln : length ns = length grid) by (unfold ns; rewrite firstn_length; lia).
  assert (Hne : ns <> []) by (destruct ns, grid; cbn in Ln; congruence).
  change (coef_shape (length grid) (ashape D)) with (all2 ns ++ comps) in HS1.
  assert (LC : length (ashape D) = (length grid + length comps)%nat) by (rewrite HD, app_length; lia).
  replace (length (ashape D) - length grid)%nat with (length comps) by lia.
  destruct comps as [|nx [|]] eqn:Ec; cbn [length] in LC; [| |lia].
  - cbn. eapply resrel_mono. eapply (filter_vv0_agree grid D [] []); eauto.
    cbv beta. intros C1' C2' (S1 & S2 & A & _). split; auto.
    apply aeq_of_agree with (sizes := all2 ns) (comps := []); try congruence.
    intros suf Hs. destruct suf; [auto|discriminate].
  - cbn [filter_vv length]. replace (zlen grid + Z.of_nat 0) with (zlen grid) by lia.
    assert (EZ : zlen grid = zlen (all2 ns)) by (rewrite zlen_all2; unfold zlen; lia).
    rewrite EZ. rewrite (adim_mid C1 (all2 ns) nx []) by auto.
    rewrite (adim_mid C2 (all2 ns) nx []) by congruence. cbn [bind].
    set (R := fun n C1' C2' => ashape C1' = ashape C1 /\ ashape C2' = ashape C1 /\
       forall j, 0 <= j < n -> agree (all2 ns) [j] C1' C2').
    assert (H : resrel (R (Z.max 0 nx)) (foldM (fun C ix => filter_scalar grid D [ix] C) (zrange nx) C1)
       (foldM (fun C ix => filter_scalar grid D [ix] C) (zrange nx) C2)).
    { assert (G : forall n, 0 <= n -> n <= Z.max 0 nx ->
        resrel (R n) (foldM (fun C ix => filter_scalar grid D [ix] C) (zrange n) C1)
       (foldM (fun C ix => filter_scalar grid D [ix] C) (zrange n) C2)).
      { intros n Hn. pattern n. apply natlike_ind; auto.
        - intros _. rewrite zrange_nil by lia. cbn. repeat split; auto. intros; lia.
        - clear n Hn. intros n Hn IH Hn2. unfold Z.succ in *. rewrite zrange_S, !foldM_app by lia.
          eapply resrel_bind. apply IH; lia.
          intros A B (SA & SB & HAB). cbn.
          pose proof (filter_vv0_agree grid D [nx] [n] A B ns) as F.
          specialize (F Hne HT Ln HD ltac:(congruence) ltac:(congruence)).
          specialize (F ltac:(apply inb_spec; repeat constructor; lia)).
          destruct (filter_scalar grid D [n] A) as [A'|], (filter_scalar grid D [n] B) as [B'|]; cbn in F |- *; auto.
          destruct F as (S1 & S2 & A1 & F1 & F2). split; [congruence|]. split; [congruence|].
          intros j Hj. destruct (Z.eq_dec j n) as [->|Nj]; auto.
          intros idx Hi. assert (L : length idx = length ns).
          { apply inb_length in Hi. unfold all2 in Hi. rewrite map_length in Hi. auto. }
          rewrite (frame_other _ _ [j] _ _ idx F1), (frame_other _ _ [j] _ _ idx F2) by (auto; congruence).
          apply HAB; auto. lia. }
      destruct (Z.le_gt_cases 0 nx).
      - replace (Z.max 0 nx) with nx by lia. apply G; lia.
      - replace (zrange nx) with (zrange 0) by (rewrite !zrange_nil by lia; auto).
        replace (Z.max 0 nx) with 0 by lia. apply G; lia. }
    eapply resrel_mono. exact H. intros A B (SA & SB & HAB). split; auto.
    apply aeq_of_agree with (sizes := all2 ns) (comps := [nx]); try congruence.
    intros suf Hs. destruct suf as [|j [|]]; cbn in Hs; [discriminate| |lia].
    apply HAB. lia.
Qed.

End Gen.
