(** What the two templates compute, for every arithmetic: each cell of the result is the
    value [valp] of one tensor reduction (or zero), whatever [out] contained before. *)
From Coq Require Import ZArith List Bool Lia ZifyBool.
From Verif Require Import Base BaseFacts SplineModel Spec EvalGeneric.
Import ListNotations.
Open Scope Z_scope.

Section Gen.
Context {T : Type} {NT : Num T}.
Notation gdim := (gdim T).
Notation arr := (arr T).

(** ** Regions of an array *)
Definition patched (o o' : arr) (P : list Z -> bool) (w : list Z -> T) : Prop :=
  ashape o' = ashape o /\
  forall idx, inb (ashape o) idx = true ->
    acell o' idx = if P idx then w idx else acell o idx.

Lemma patched_refl o P w : (forall idx, inb (ashape o) idx = true -> P idx = false) -> patched o o P w.
Proof. intros H; split; auto. intros idx Hi. now rewrite H. Qed.

Lemma patched_trans o o1 o2 P Q w :
  patched o o1 P w -> patched o1 o2 Q w -> patched o o2 (fun i => P i || Q i) w.
Proof.
  intros [S1 H1] [S2 H2]. split. congruence. intros idx Hi.
  rewrite H2 by congruence. rewrite H1 by auto. destruct (P idx), (Q idx); reflexivity.
Qed.

Lemma patched_ext o o' P Q w w' :
  (forall idx, inb (ashape o) idx = true -> P idx = Q idx) ->
  (forall idx, inb (ashape o) idx = true -> P idx = true -> w idx = w' idx) ->
  patched o o' P w -> patched o o' Q w'.
Proof.
  intros HP Hw [S H]. split; auto. intros idx Hi. rewrite H by auto.
  rewrite <- HP by auto. destruct (P idx) eqn:E; auto.
Qed.

Lemma aset_patched o idx v w :
  inb (ashape o) idx = true -> v = w idx ->
  exists o', aset o idx v = Ok o' /\ patched o o' (fun j => idx_eqb j idx) w.
Proof.
  intros Hi E. exists (upd o idx v). split. now apply aset_ok.
  split. reflexivity. intros j Hj. cbn.
  destruct (idx_eqb_spec j idx); auto. congruence.
Qed.

Lemma foldM_patch (f : arr -> Z -> res arr) n (P : Z -> list Z -> bool) w sh :
  0 <= n ->
  (forall i o, 0 <= i < n -> ashape o = sh -> exists o', f o i = Ok o' /\ patched o o' (P i) w) ->
  forall o, ashape o = sh ->
  exists o', foldM f (zrange n) o = Ok o' /\
             patched o o' (fun idx => existsb (fun i => P i idx) (zrange n)) w.
Proof.
  intros Hn Hf o Ho.
  destruct (foldM_zrange f (fun m o' => patched o o' (fun idx => existsb (fun i => P i idx) (zrange m)) w) n o)
    as [o' [E H]]; auto.
  - apply patched_refl. intros; reflexivity.
  - intros i o1 Hi H1. destruct (Hf i o1 Hi) as [o2 [E2 H2]]. { destruct H1; congruence. }
    exists o2; split; auto.
    eapply patched_ext; [| |exact (patched_trans _ _ _ _ _ _ H1 H2)]; auto.
    intros idx _. cbn. rewrite zrange_S by lia. rewrite existsb_app. cbn.
    now rewrite orb_false_r.
  - exists o'; split; auto.
Qed.

(** A loop that ends well went well at each step. *)
Lemma foldM_each {S A} (f : S -> A -> res S) (I : S -> Prop) l :
  (forall s a s', In a l -> I s -> f s a = Ok s' -> I s') ->
  forall s s', I s -> foldM f l s = Ok s' ->
  I s' /\ forall a, In a l -> exists s1 s2, I s1 /\ f s1 a = Ok s2.
Proof.
  induction l as [|b l IH]; cbn; intros HI s s' Hs H.
  - inv_ok. split; auto; tauto.
  - inv_ok. destruct (IH ltac:(eauto) x s') as [H1 H2]; eauto.
    split; auto. intros a [->|Ha]; eauto.
Qed.

Lemma store_all_patched pre vals : forall o w,
  (forall j, 0 <= j < zlen vals -> inb (ashape o) (pre ++ [j]) = true) ->
  (forall j, 0 <= j < zlen vals -> nth_error vals (Z.to_nat j) = Some (w (pre ++ [j]))) ->
  exists o', store_all pre vals o = Ok o' /\
    patched o o' (fun idx => existsb (fun j => idx_eqb idx (pre ++ [j])) (zrange (zlen vals))) w.
Proof.
  unfold store_all. intros o w Hin Hw.
  assert (G : forall vs k o, 0 <= k ->
     (forall j, k <= j < k + zlen vs -> inb (ashape o) (pre ++ [j]) = true) ->
     (forall j, k <= j < k + zlen vs -> nth_error vs (Z.to_nat (j - k)) = Some (w (pre ++ [j]))) ->
     exists o', foldM (fun o jv => aset o (pre ++ [fst jv]) (snd jv)) (enum_from k vs) o = Ok o' /\
       patched o o' (fun idx => existsb (fun j => idx_eqb idx (pre ++ [k + j])) (zrange (zlen vs))) w).
  { induction vs as [|v vs IH]; intros k o0 Hk H1 H2; cbn [enum_from foldM].
    - exists o0. split; auto. apply patched_refl. intros. reflexivity.
    - rewrite zlen_cons in *. pose proof (zlen_nonneg vs).
      destruct (aset_patched o0 (pre ++ [k]) v w) as [o1 [E1 P1]].
      { apply H1. lia. }
      { specialize (H2 k). rewrite Z.sub_diag in H2. cbn in H2.
        assert (Some v = Some (w (pre ++ [k]))) by (apply H2; lia). congruence. }
      cbn [fst snd]. rewrite E1. cbn [bind].
      destruct (IH (k + 1) o1) as [o2 [E2 P2]].
      + lia.
      + intros j Hj. destruct P1 as [-> _]. apply H1. lia.
      + intros j Hj. specialize (H2 j ltac:(lia)).
        replace (Z.to_nat (j - k)) with (S (Z.to_nat (j - (k + 1)))) in H2 by lia. exact H2.
      + exists o2. split; auto.
        eapply patched_ext; [| |exact (patched_trans _ _ _ _ _ _ P1 P2)]; auto.
        intros idx _. cbn beta.
        replace (zlen vs + 1) with (zlen vs + 1) by lia.
        rewrite (zrange_cons (zlen vs + 1)) by lia. cbn [existsb].
        rewrite Z.add_0_r. f_equal.
        replace (zlen vs + 1 - 1) with (zlen vs) by lia.
        clear. induction (zrange (zlen vs)); cbn; auto. rewrite IHl. f_equal.
        f_equal. f_equal. f_equal. lia. }
  destruct (G vals 0 o) as [o' [E H]]; try lia; auto.
  { intros j Hj. rewrite Z.sub_0_r. apply Hw; lia. }
  exists o'; split; auto.
Qed.

Lemma store_all_inv pre vals (o o' : arr) :
  store_all pre vals o = Ok o' -> ashape o' = ashape o.
Proof.
  unfold store_all. intros H.
  eapply (foldM_each _ (fun s => ashape s = ashape o)) in H; [tauto| |reflexivity].
  intros s a s' _ Hs E. apply aset_inv in E as [_ ->]. exact Hs.
Qed.

(** ** One evaluation *)
(** Brackets of a point: [None] = outside in CONSTANT mode. *)
Definition prep (xm : extrap) (gps : list gpar) (pt : list T) : res (option (list (Z * T * T))) :=
  bind (extractN xm gps pt) (fun co =>
  match co with
  | None => Ok None
  | Some xs => bind (mapM2 bracket gps xs) (fun brs => Ok (Some brs))
  end).

Definition valp (k : Z) (C : arr) (pr : option (list (Z * T * T))) (oo ix : list Z) : res T :=
  match pr with
  | None => Ok (n_ofZ 0)
  | Some brs => get_value k brs oo C ix
  end.

Definition rowshape (vv : bool) (orders : option (list (list Z))) (n_vals : Z) : list Z :=
  (if vv then [n_vals] else []) ++ match orders with None => [] | Some os => [zlen os] end.

(** Which derivative order / component the trailing index of a result cell refers to. *)
Definition sel_oo (d : Z) (orders : option (list (list Z))) (suf : list Z) : list Z :=
  match orders with
  | None => map (fun _ => 0) (zrange d)
  | Some os => nth (Z.to_nat (last suf 0)) os []
  end.
Definition sel_ix (vv : bool) (suf : list Z) : list Z := if vv then [hd 0 suf] else [].

Lemma zeros_like_sel (brs : list (Z * T * T)) d suf :
  zlen brs = d -> zeros_like brs = sel_oo d None suf.
Proof.
  intros <-. unfold zeros_like, sel_oo, zlen, zrange. rewrite Nat2Z.id, map_map.
  generalize 0%nat. induction brs; cbn; intros; auto. f_equal. apply IHbrs.
Qed.

Lemma extractN_length xm gps pt xs :
  extractN xm gps pt = Ok (Some xs) -> length xs = length gps.
Proof.
  revert pt xs; induction gps as [|gp gps IH]; cbn; intros pt xs H; [inv_ok; auto|].
  destruct pt as [|x pt]; [discriminate|].
  assert (G : forall y, bind (extractN xm gps pt) (fun r => match r with Some xs => Ok (Some (y :: xs)) | None => Ok None end) = Ok (Some xs) -> length xs = S (length gps)).
  { intros y Hy. inv_ok. destruct x0; inv_ok. cbn. f_equal. eauto. }
  destruct xm; [|eauto|].
  - apply bind_ok in H as [[a b] [_ H]]. destruct (outside a b x); [discriminate|eauto].
  - apply bind_ok in H as [[a b] [_ H]]. eauto.
Qed.

Lemma prep_length xm gps pt brs : prep xm gps pt = Ok (Some brs) -> length brs = length gps.
Proof.
  unfold prep. intros H. inv_ok. destruct x as [xs|]; inv_ok.
  match goal with Hm : mapM2 _ _ _ = _ |- _ => apply mapM2_length in Hm end. tauto.
Qed.

(** *** The many-points template *)
Section Rows.
Variables (k : Z) (orders : option (list (list Z))) (xm : extrap) (grid : list gdim).
Variables (C points : arr) (n_vals N : Z) (gps : list (@gpar T)).
Let d := zlen grid.
Let vv := andim C =? d + 1.
Let rs := rowshape vv orders n_vals.
Hypothesis Hgps : zlen gps = d.

Definition row_region (nn : Z) (idx : list Z) : bool :=
  match idx with n0 :: _ => n0 =? nn | [] => false end.

Lemma brs_len pt brs : prep xm gps pt = Ok (Some brs) -> zlen brs = d.
Proof. intros H. apply prep_length in H. unfold zlen in *. lia. Qed.

Lemma eval_row_ok nn o pt pr w :
  ashape o = N :: rs -> 0 <= nn < N -> 0 <= n_vals ->
  row d points nn = Ok pt -> prep xm gps pt = Ok pr ->
  (forall suf, inb rs suf = true -> valp k C pr (sel_oo d orders suf) (sel_ix vv suf) = Ok (w suf)) ->
  exists o', eval_row k orders xm vv n_vals d gps C points o nn = Ok o' /\
             patched o o' (row_region nn) (fun idx => w (tl idx)).
Proof.
  intros Ho Hnn Hnv Hrow Hprep Hw. unfold eval_row. rewrite Hrow; cbn [bind].
  pose proof Hprep as Hp. unfold prep in Hp. apply bind_ok in Hp as [co [Hco Hp]].
  rewrite Hco; cbn [bind]. destruct co as [xs|].
  2:{ inv_ok. unfold afill_row0. rewrite Ho.
      replace ((0 <=? nn) && (nn <? N)) with true by lia. eexists; split; eauto.
      split; [cbn; congruence|]. cbn. intros idx Hidx. destruct idx as [|n0 suf]; auto. cbn.
      destruct (Z.eqb_spec n0 nn); auto. rewrite Ho in Hidx. cbn in Hidx.
      apply andb_true_iff in Hidx as [_ Hidx]. specialize (Hw _ Hidx). cbn in Hw. congruence. }
  apply bind_ok in Hp as [brs [Hbrs Hp]]. inversion Hp; subst pr; clear Hp.
  rewrite Hbrs; cbn [bind].
  pose proof (brs_len _ _ Hprep) as Lb.
  cbn [valp] in Hw. unfold rs, rowshape in *. fold vv in Ho, Hw |- *.
  destruct vv; destruct orders as [os|]; cbn [app] in *.
  - (* vector, derivatives *)
    destruct (foldM_patch (fun o ix => bind (mapM (fun oo => get_value k brs oo C [ix]) os)
                                         (fun vals => store_all [nn; ix] vals o))
                n_vals (fun ix idx => existsb (fun j => idx_eqb idx [nn; ix; j]) (zrange (zlen os)))
                (fun idx => w (tl idx)) [N; n_vals; zlen os]) with (o := o) as [o' [E P]]; auto.
    { intros ix o1 Hix Ho1.
      assert (E1 : mapM (fun oo => get_value k brs oo C [ix]) os
                   = Ok (map (fun j => w [ix; j]) (zrange (zlen os)))).
      { apply mapM_nth with (d0 := []). intros j Hj. specialize (Hw [ix; j]). cbn in Hw.
        apply Hw. rewrite !andb_true_iff. lia. }
      rewrite E1; cbn [bind].
      destruct (store_all_patched [nn; ix] (map (fun j => w [ix; j]) (zrange (zlen os))) o1
                 (fun idx => w (tl idx))) as [o2 [E4 P4]];
        rewrite ?zlen_map, ?zlen_zrange in * by apply zlen_nonneg.
      - intros j Hj. rewrite Ho1. cbn. rewrite !andb_true_iff. lia.
      - intros j Hj. cbn [app tl]. apply (nth_error_zmap (fun j => w [ix; j])). lia.
      - exists o2; split; auto. }
    exists o'; split; auto. eapply patched_ext; [| |exact P]; auto.
    intros idx Hidx. rewrite Ho in Hidx. destruct idx as [|n0 [|i0 [|j0 [|]]]]; cbn in Hidx; try lia.
    cbn [row_region].
    destruct (Z.eqb_spec n0 nn).
    + subst. apply existsb_exists. exists i0. split; [apply zrange_In; lia|].
      apply existsb_exists. exists j0. split; [apply zrange_In; lia|]. apply idx_eqb_refl.
    + apply not_true_iff_false. rewrite existsb_exists. intros [i [_ H]].
      rewrite existsb_exists in H. destruct H as [j [_ H]].
      destruct (idx_eqb_spec [n0; i0; j0] [nn; i; j]); congruence.
  - (* vector, values *)
    destruct (foldM_patch (fun o ix => bind (get_value k brs (zeros_like brs) C [ix]) (fun v => aset o [nn; ix] v))
                n_vals (fun ix idx => idx_eqb idx [nn; ix]) (fun idx => w (tl idx)) [N; n_vals])
      with (o := o) as [o' [E P]]; auto.
    { intros ix o1 Hix Ho1. rewrite (zeros_like_sel _ d [ix]) by auto.
      specialize (Hw [ix]). cbn [sel_ix hd] in Hw. rewrite Hw by (cbn; rewrite !andb_true_iff; lia).
      cbn [bind]. apply aset_patched; auto. rewrite Ho1. cbn. rewrite !andb_true_iff; lia. }
    exists o'; split; auto. eapply patched_ext; [| |exact P]; auto.
    intros idx Hidx. rewrite Ho in Hidx. destruct idx as [|n0 [|i0 [|]]]; cbn in Hidx; try lia.
    cbn [row_region]. destruct (Z.eqb_spec n0 nn).
    + subst. apply existsb_exists. exists i0. split; [apply zrange_In; lia|]. apply idx_eqb_refl.
    + apply not_true_iff_false. rewrite existsb_exists. intros [i [_ H]].
      destruct (idx_eqb_spec [n0; i0] [nn; i]); congruence.
  - (* scalar, derivatives *)
    assert (E1 : mapM (fun oo => get_value k brs oo C []) os
                 = Ok (map (fun j => w [j]) (zrange (zlen os)))).
    { apply mapM_nth with (d0 := []). intros j Hj. specialize (Hw [j]). cbn in Hw.
      apply Hw. rewrite !andb_true_iff. lia. }
    rewrite E1; cbn [bind].
    destruct (store_all_patched [nn] (map (fun j => w [j]) (zrange (zlen os))) o
               (fun idx => w (tl idx))) as [o2 [E4 P4]];
      rewrite ?zlen_map, ?zlen_zrange in * by apply zlen_nonneg.
    { intros j Hj. rewrite Ho. cbn. rewrite !andb_true_iff. lia. }
    { intros j Hj. cbn [app tl]. apply (nth_error_zmap (fun j => w [j])). lia. }
    exists o2; split; auto.
    eapply patched_ext; [| |exact P4]; auto.
    intros idx Hidx. rewrite Ho in Hidx. destruct idx as [|n0 [|j0 [|]]]; cbn in Hidx; try lia.
    cbn [row_region app]. destruct (Z.eqb_spec n0 nn).
    + subst. apply existsb_exists. exists j0. split; [apply zrange_In; lia|]. apply idx_eqb_refl.
    + apply not_true_iff_false. rewrite existsb_exists. intros [i [_ H]].
      destruct (idx_eqb_spec [n0; j0] [nn; i]); congruence.
  - (* scalar, values *)
    rewrite (zeros_like_sel _ d []) by auto. specialize (Hw []). cbn [sel_ix] in Hw.
    rewrite Hw by reflexivity. cbn [bind].
    destruct (aset_patched o [nn] (w []) (fun idx => w (tl idx))) as [o' [E P]]; auto.
    { rewrite Ho. cbn. rewrite !andb_true_iff; lia. }
    exists o'; split; auto. eapply patched_ext; [| |exact P]; auto.
    intros idx Hidx. rewrite Ho in Hidx. destruct idx as [|n0 [|]]; cbn in Hidx; try lia.
    cbn. apply andb_true_r.
Qed.

(** All rows. *)
Lemma eval_rows_loop_ok o w (pr : Z -> option (list (Z * T * T))) :
  ashape o = N :: rs -> 0 <= N -> 0 <= n_vals ->
  (forall nn, 0 <= nn < N -> exists pt, row d points nn = Ok pt /\ prep xm gps pt = Ok (pr nn)) ->
  (forall nn suf, 0 <= nn < N -> inb rs suf = true ->
     valp k C (pr nn) (sel_oo d orders suf) (sel_ix vv suf) = Ok (w (nn :: suf))) ->
  exists o', foldM (eval_row k orders xm vv n_vals d gps C points) (zrange N) o = Ok o' /\
             ashape o' = ashape o /\
             forall idx, inb (ashape o) idx = true -> acell o' idx = w idx.
Proof.
  intros Ho HN Hnv Hpr Hw.
  destruct (foldM_patch (eval_row k orders xm vv n_vals d gps C points) N row_region w (N :: rs))
    with (o := o) as [o' [E [S P]]]; auto.
  - intros nn o1 Hnn Ho1. destruct (Hpr nn Hnn) as [pt [Hrow Hprep]].
    destruct (eval_row_ok nn o1 pt (pr nn) (fun suf => w (nn :: suf))) as [o2 [E2 P2]]; auto.
    exists o2; split; auto. eapply patched_ext; [| |exact P2]; auto.
    intros idx Hidx Hreg. destruct idx as [|n0 suf]; cbn in *; [discriminate|].
    apply Z.eqb_eq in Hreg. now subst.
  - exists o'; split; [auto|split; auto]. intros idx Hidx. rewrite P by auto.
    rewrite Ho in Hidx. destruct idx as [|n0 suf]; [discriminate|]. cbn in Hidx.
    apply andb_true_iff in Hidx as [Hi _].
    replace (existsb _ _) with true; auto. symmetry. apply existsb_exists.
    exists n0. split. apply zrange_In; lia. cbn. apply Z.eqb_refl.
Qed.

Lemma afill_row0_shape (o o' : arr) nn : afill_row0 o nn = Ok o' -> ashape o' = ashape o.
Proof.
  unfold afill_row0. destruct (ashape o) eqn:E; [discriminate|].
  destruct (_ && _); [|discriminate]. intros H; inversion H; cbn; auto.
Qed.

Lemma eval_row_shape o nn o' :
  eval_row k orders xm vv n_vals d gps C points o nn = Ok o' -> ashape o' = ashape o.
Proof.
  unfold eval_row. intros H. apply bind_ok in H as [pt [_ H]]. apply bind_ok in H as [co [_ H]].
  destruct co as [xs|]; [|now apply afill_row0_shape in H].
  apply bind_ok in H as [brs [_ H]].
  destruct vv; destruct orders as [os|].
  - eapply (foldM_each _ (fun s => ashape s = ashape o)) in H; [tauto| |reflexivity].
    intros s a s' _ Hs E. apply bind_ok in E as [vals [_ E]]. apply store_all_inv in E. congruence.
  - eapply (foldM_each _ (fun s => ashape s = ashape o)) in H; [tauto| |reflexivity].
    intros s a s' _ Hs E. apply bind_ok in E as [v [_ E]]. apply aset_inv in E as [_ ->]. exact Hs.
  - apply bind_ok in H as [vals [_ E]]. now apply store_all_inv in E.
  - apply bind_ok in H as [v [_ E]]. now apply aset_inv in E as [_ ->].
Qed.

(** A row that was evaluated without error had all its values. *)
Lemma eval_row_inv o nn o' :
  eval_row k orders xm vv n_vals d gps C points o nn = Ok o' ->
  exists pt pr, row d points nn = Ok pt /\ prep xm gps pt = Ok pr /\
    forall suf, inb rs suf = true ->
      exists v, valp k C pr (sel_oo d orders suf) (sel_ix vv suf) = Ok v.
Proof.
  unfold eval_row. intros H. apply bind_ok in H as [pt [Hrow H]]. apply bind_ok in H as [co [Hco H]].
  destruct co as [xs|].
  2:{ exists pt, None. split; [auto|split]. unfold prep. now rewrite Hco. intros; cbn; eauto. }
  apply bind_ok in H as [brs [Hbrs H]]. exists pt, (Some brs).
  assert (Hprep : prep xm gps pt = Ok (Some brs)).
  { unfold prep. rewrite Hco; cbn [bind]. now rewrite Hbrs. }
  pose proof (brs_len _ _ Hprep) as Lb.
  split; [auto|split; auto]. unfold rs, rowshape. cbn [valp].
  destruct vv; destruct orders as [os|]; cbn [app].
  - eapply (foldM_each _ (fun _ => True)) in H; [|auto|exact I]. destruct H as [_ H].
    intros suf Hs. destruct suf as [|ix [|j [|]]]; cbn in Hs; try lia.
    destruct (H ix) as [s1 [s2 [_ E]]]. { apply zrange_In; lia. }
    apply bind_ok in E as [vals [E _]]. apply mapM_ok in E. cbn [sel_oo last sel_ix hd].
    assert (HL : (Z.to_nat j < length os)%nat) by (unfold zlen in Hs; lia).
    clear -E HL. revert HL. generalize (Z.to_nat j). induction E; intros n HL; cbn in HL; [lia|].
    destruct n; cbn; eauto. apply IHE. lia.
  - eapply (foldM_each _ (fun _ => True)) in H; [|auto|exact I]. destruct H as [_ H].
    intros suf Hs. destruct suf as [|ix [|]]; cbn in Hs; try lia.
    destruct (H ix) as [s1 [s2 [_ E]]]. { apply zrange_In; lia. }
    apply bind_ok in E as [v [E _]]. exists v. now rewrite <- (zeros_like_sel brs d [ix]).
  - apply bind_ok in H as [vals [E _]]. apply mapM_ok in E.
    intros suf Hs. destruct suf as [|j [|]]; cbn in Hs; try lia. cbn [sel_oo last sel_ix].
    assert (HL : (Z.to_nat j < length os)%nat) by (unfold zlen in Hs; lia).
    clear -E HL. revert HL. generalize (Z.to_nat j). induction E; intros n HL; cbn in HL; [lia|].
    destruct n; cbn; eauto. apply IHE. lia.
  - apply bind_ok in H as [v [E _]]. intros suf Hs. destruct suf; [|discriminate].
    exists v. now rewrite <- (zeros_like_sel brs d []).
Qed.

End Rows.

(** *** The one-point template *)
Lemma extract1_go xm vv alloc gps : forall pt xs out,
  extractN xm gps pt = Ok (Some xs) -> extract1 xm vv alloc gps pt out = Ok (Go1 xs out).
Proof.
  induction gps as [|gp gps IH]; cbn; intros pt xs out H; [inv_ok; auto|].
  destruct pt as [|x pt]; [discriminate|].
  assert (G : forall y, bind (extractN xm gps pt) (fun r => match r with Some xs => Ok (Some (y :: xs)) | None => Ok None end) = Ok (Some xs) ->
     bind (extract1 xm vv alloc gps pt out) (fun r => match r with Go1 xs out' => Ok (Go1 (y :: xs) out') | Ret1 v out' => Ok (Ret1 v out') end) = Ok (Go1 xs out)).
  { intros y Hy. apply bind_ok in Hy as [r [Hr Hy]]. destruct r as [xs'|]; inversion Hy; subst.
    now rewrite (IH _ _ out Hr). }
  destruct xm; [|eauto|].
  - apply bind_ok in H as [[a b] [Hb H]]. rewrite Hb; cbn [bind].
    destruct (outside a b x); [discriminate|eauto].
  - apply bind_ok in H as [[a b] [Hb H]]. rewrite Hb; cbn [bind]. eauto.
Qed.

Lemma extractN_none xm gps pt : extractN xm gps pt = Ok None -> xm = XConstant.
Proof.
  revert pt; induction gps as [|gp gps IH]; cbn; intros pt H; [discriminate|].
  destruct pt as [|x pt]; [discriminate|]. destruct xm; auto.
  - apply bind_ok in H as [[xs|] [Hr H]]; [discriminate|eauto].
  - apply bind_ok in H as [[a b] [Hb H]]. apply bind_ok in H as [[xs|] [Hr H]]; [discriminate|eauto].
Qed.

Lemma extract1_ret_scalar alloc gps : forall pt out,
  extractN XConstant gps pt = Ok None ->
  extract1 XConstant false alloc gps pt out = Ok (Ret1 (VNum (n_ofZ 0)) out).
Proof.
  induction gps as [|gp gps IH]; cbn; intros pt out H; [discriminate|].
  destruct pt as [|x pt]; [discriminate|].
  apply bind_ok in H as [[a b] [Hb H]]. rewrite Hb; cbn [bind].
  destruct (outside a b x); auto.
  apply bind_ok in H as [[xs|] [Hr H]]; [discriminate|]. now rewrite (IH _ out Hr).
Qed.

Lemma extract1_ret_vv gps : forall pt o,
  extractN XConstant gps pt = Ok None ->
  extract1 XConstant true true gps pt (Some o) = Ok (Ret1 (VArr (afill0 o)) None).
Proof.
  induction gps as [|gp gps IH]; cbn; intros pt o H; [discriminate|].
  destruct pt as [|x pt]; [discriminate|].
  apply bind_ok in H as [[a b] [Hb H]]. rewrite Hb; cbn [bind].
  destruct (outside a b x); auto.
  apply bind_ok in H as [[xs|] [Hr H]]; [discriminate|]. now rewrite (IH _ o Hr).
Qed.

(** The bounds a_i, b_i only matter outside of LINEAR mode. *)
Definition erase (gp : @gpar T) : gpar := match gp with PN gc N _ => PN gc N None | g => g end.

Lemma bracket_erase gp x : bracket (erase gp) x = bracket gp x.
Proof. destruct gp; reflexivity. Qed.

Lemma extractN_linear gps pt : extractN XLinear gps pt =
  if (length gps <=? length pt)%nat then Ok (Some (firstn (length gps) pt)) else Err IndexErr.
Proof.
  revert pt; induction gps as [|gp gps IH]; intros pt; cbn [extractN length firstn]; auto.
  destruct pt as [|x pt]; auto. rewrite IH. cbn [length Nat.leb firstn].
  destruct (length gps <=? length pt)%nat; reflexivity.
Qed.

Lemma prep_linear_erase gps pt : prep XLinear (map erase gps) pt = prep XLinear gps pt.
Proof.
  unfold prep. rewrite !extractN_linear, map_length.
  destruct (_ <=? _)%nat; auto. cbn [bind]. f_equal.
  generalize (firstn (length gps) pt) as xs. induction gps as [|gp gps IH]; intros [|x xs]; cbn; auto.
  rewrite bracket_erase, IH. reflexivity.
Qed.

Lemma recover_erase grid gps : mapM recoverN grid = Ok gps -> mapM recover1 grid = Ok (map erase gps).
Proof.
  revert gps; induction grid as [|g grid IH]; cbn; intros gps H; [inv_ok; auto|].
  apply bind_ok in H as [gp [Hg H]]. apply bind_ok in H as [gps' [Hgs H]]. inversion H; subst.
  rewrite (IH _ Hgs). destruct g; cbn in *.
  - apply bind_ok in Hg as [del [-> Hg]]. inversion Hg; subst. reflexivity.
  - apply bind_ok in Hg as [a [_ Hg]]. apply bind_ok in Hg as [b [_ Hg]]. inversion Hg; subst. reflexivity.
Qed.

Lemma recover_unif grid gps :
  existsb is_nonunif grid = false -> mapM recoverN grid = Ok gps -> mapM recover1 grid = Ok gps.
Proof.
  intros Hu H. rewrite <- H. apply mapM_ext. intros g Hg.
  destruct g; auto. exfalso. assert (existsb is_nonunif grid = true).
  { apply existsb_exists. eexists; split; eauto. } congruence.
Qed.

(** The call forms of the one-point template that numba compiles:
    no NEAREST/CONSTANT on nonuniform dimensions; no CONSTANT with a tuple result. *)
Definition point_supported (xm : extrap) (grid : list gdim) (orders : option (list (list Z)))
  (vv alloc : bool) : Prop :=
  (xm = XLinear \/ existsb is_nonunif grid = false) /\
  ~ (xm = XConstant /\ orders <> None /\ vv = false /\ alloc = true).

Definition point_result (vv : bool) (orders : option (list (list Z))) (rs : list Z)
  (out : option arr) (w : list Z -> T) (r : pyval T * option arr) : Prop :=
  match vv, orders with
  | false, None => r = (VNum (w []), out)
  | _, _ =>
      match out with
      | None =>
          match vv, orders with
          | false, Some os => r = (VTuple (map (fun j => w [j]) (zrange (zlen os))), None)
          | _, _ => exists o', r = (VArr o', None) /\ ashape o' = rs /\
                               forall suf, inb rs suf = true -> acell o' suf = w suf
          end
      | Some _ => exists o', r = (VNone, Some o') /\ ashape o' = rs /\
                             forall suf, inb rs suf = true -> acell o' suf = w suf
      end
  end.

Lemma eval_point_ok k orders xm grid C pt out gps pr n_vals w :
  let d := zlen grid in
  let vv := andim C =? d + 1 in
  let rs := rowshape vv orders n_vals in
  let alloc := match out with None => true | Some _ => false end in
  compile_check k grid orders = Ok tt ->
  point_supported xm grid orders vv alloc ->
  (if vv then adim C d else Ok 0) = Ok n_vals -> 0 <= n_vals ->
  mapM recoverN grid = Ok gps ->
  prep xm gps pt = Ok pr ->
  (forall o, out = Some o -> (vv = true \/ orders <> None) -> ashape o = rs /\ pr <> None) ->
  (forall suf, inb rs suf = true -> valp k C pr (sel_oo d orders suf) (sel_ix vv suf) = Ok (w suf)) ->
  exists r, eval_point k orders xm grid C pt out = Ok r /\ point_result vv orders rs out w r.
Proof.
  intros d vv rs alloc Hcc [Hs1 Hs2] Hnv Hnv0 Hgps Hprep Hout Hw.
  unfold eval_point. fold d. fold vv. fold alloc. rewrite Hcc; cbn [bind].
  assert (Hn : existsb is_nonunif grid && match xm with XLinear => false | _ => true end = false).
  { destruct Hs1 as [->| ->]. apply andb_false_r. reflexivity. }
  rewrite Hn; cbn [bind].
  match goal with |- context [bind (match xm with _ => _ end) _] =>
    assert (Ht : (match xm with
         | XConstant => match orders with Some _ => if negb vv && alloc then Err TypeErr else Ok tt | None => Ok tt end
         | _ => Ok tt end) = Ok tt) end.
  { destruct xm; auto. destruct orders; auto. destruct vv eqn:E1; cbn; auto. destruct alloc eqn:E2; auto.
    exfalso. apply Hs2. repeat split; auto. discriminate. }
  rewrite Ht; cbn [bind]. rewrite Hnv; cbn [bind].
  (* the gpars used by the one-point template give the same prep *)
  assert (HG : exists gps1, mapM recover1 grid = Ok gps1 /\ prep xm gps1 pt = Ok pr /\ length gps1 = length grid).
  { destruct Hs1 as [Hx|Hx].
    - subst xm. exists (map erase gps). split; [now apply recover_erase|].
      split; [now rewrite prep_linear_erase|]. rewrite map_length. eapply mapM_length; eauto.
    - exists gps. split; [now apply recover_unif|]. split; auto. eapply mapM_length; eauto. }
  destruct HG as [gps1 [Hg1 [Hp1 HL]]]. rewrite Hg1; cbn [bind].
  pose proof Hp1 as Hp. unfold prep in Hp. apply bind_ok in Hp as [co [Hco Hp]].
  destruct co as [xs|].
  - (* inside *)
    apply bind_ok in Hp as [brs [Hbrs Hp]]. inversion Hp; subst pr; clear Hp.
    rewrite (extract1_go _ _ _ _ _ _ _ Hco); cbn [bind]. rewrite Hbrs; cbn [bind].
    assert (Lb : zlen brs = d).
    { apply prep_length in Hp1. unfold zlen, d. unfold zlen. lia. }
    cbn [valp] in Hw. unfold rs, rowshape in *.
    destruct vv eqn:Evv; cbn [app] in *.
    + (* vector *)
      assert (HO : exists o0, (if alloc then match orders with
                               | None => Some (azeros [n_vals])
                               | Some os => Some (azeros [n_vals; zlen os]) end else out) = Some o0
                   /\ ashape o0 = n_vals :: match orders with None => [] | Some os => [zlen os] end).
      { unfold alloc. destruct out as [o|].
        - exists o. split; auto. destruct (Hout o eq_refl (or_introl eq_refl)). auto.
        - destruct orders; eexists; split; reflexivity. }
      destruct HO as [o0 [-> Ho0]].
      assert (HF : exists o', (match orders with
           | None => foldM (fun o ix => bind (get_value k brs (zeros_like brs) C [ix]) (fun v => aset o [ix] v)) (zrange n_vals) o0
           | Some os => foldM (fun o ix => bind (mapM (fun oo => get_value k brs oo C [ix]) os) (fun vals => store_all [ix] vals o)) (zrange n_vals) o0
           end) = Ok o' /\ ashape o' = ashape o0 /\ forall suf, inb (ashape o0) suf = true -> acell o' suf = w suf).
      { destruct orders as [os|].
        - destruct (foldM_patch (fun o ix => bind (mapM (fun oo => get_value k brs oo C [ix]) os)
                                         (fun vals => store_all [ix] vals o))
                n_vals (fun ix idx => existsb (fun j => idx_eqb idx [ix; j]) (zrange (zlen os)))
                w [n_vals; zlen os]) with (o := o0) as [o' [E [S P]]]; auto.
          { intros ix o1 Hix Ho1.
            assert (E1 : mapM (fun oo => get_value k brs oo C [ix]) os
                         = Ok (map (fun j => w [ix; j]) (zrange (zlen os)))).
            { apply mapM_nth with (d0 := []). intros j Hj. specialize (Hw [ix; j]). cbn in Hw.
              apply Hw. rewrite !andb_true_iff. lia. }
            rewrite E1; cbn [bind].
            destruct (store_all_patched [ix] (map (fun j => w [ix; j]) (zrange (zlen os))) o1 w)
              as [o2 [E4 P4]];
              rewrite ?zlen_map, ?zlen_zrange in * by apply zlen_nonneg.
            - intros j Hj. rewrite Ho1. cbn. rewrite !andb_true_iff. lia.
            - intros j Hj. cbn [app tl]. apply (nth_error_zmap (fun j => w [ix; j])). lia.
            - exists o2; split; auto. }
          exists o'; split; [auto|split; auto]. intros suf Hsuf. rewrite P by auto.
          rewrite Ho0 in Hsuf. destruct suf as [|i0 [|j0 [|]]]; cbn in Hsuf; try lia.
          replace (existsb _ _) with true; auto. symmetry.
          apply existsb_exists. exists i0. split; [apply zrange_In; lia|].
          apply existsb_exists. exists j0. split; [apply zrange_In; lia|]. apply idx_eqb_refl.
        - destruct (foldM_patch (fun o ix => bind (get_value k brs (zeros_like brs) C [ix]) (fun v => aset o [ix] v))
                n_vals (fun ix idx => idx_eqb idx [ix]) w [n_vals]) with (o := o0) as [o' [E [S P]]]; auto.
          { intros ix o1 Hix Ho1. rewrite (zeros_like_sel _ d [ix]) by auto.
            specialize (Hw [ix]). cbn [sel_ix hd] in Hw. rewrite Hw by (cbn; rewrite !andb_true_iff; lia).
            cbn [bind]. apply aset_patched; auto. rewrite Ho1. cbn. rewrite !andb_true_iff; lia. }
          exists o'; split; [auto|split; auto]. intros suf Hsuf. rewrite P by auto.
          rewrite Ho0 in Hsuf. destruct suf as [|i0 [|]]; cbn in Hsuf; try lia.
          replace (existsb _ _) with true; auto. symmetry.
          apply existsb_exists. exists i0. split; [apply zrange_In; lia|]. apply idx_eqb_refl. }
      destruct HF as [o' [HF [S P]]]. rewrite HF; cbn [bind].
      rewrite Ho0 in S, P. unfold alloc. destruct out; cbn [point_result].
      * eexists; split; [reflexivity|]. exists o'. auto.
      * eexists; split; [reflexivity|]. exists o'. auto.
    + (* scalar *)
      destruct orders as [os|].
      * assert (E1 : mapM (fun oo => get_value k brs oo C []) os
                 = Ok (map (fun j => w [j]) (zrange (zlen os)))).
        { apply mapM_nth with (d0 := []). intros j Hj. specialize (Hw [j]). cbn in Hw.
          apply Hw. rewrite !andb_true_iff. lia. }
        rewrite E1; cbn [bind]. unfold alloc. destruct out as [o|]; cbn [point_result].
        -- destruct (Hout o eq_refl) as [Ho _]; [right; discriminate|].
           destruct (store_all_patched [] (map (fun j => w [j]) (zrange (zlen os))) o w)
             as [o2 [E4 [S P4]]];
             rewrite ?zlen_map, ?zlen_zrange in * by apply zlen_nonneg.
           { intros j Hj. rewrite Ho. cbn. rewrite !andb_true_iff. lia. }
           { intros j Hj. cbn [app]. apply (nth_error_zmap (fun j => w [j])). lia. }
           rewrite E4; cbn [bind]. eexists; split; [reflexivity|]. exists o2.
           split; [auto|split; [congruence|]]. intros suf Hsuf. rewrite P4 by congruence.
           destruct suf as [|j0 [|]]; cbn in Hsuf; try lia.
           replace (existsb _ _) with true; auto. symmetry.
           apply existsb_exists. exists j0. split; [apply zrange_In; lia|]. apply idx_eqb_refl.
        -- eexists; split; reflexivity.
      * specialize (Hw [] eq_refl). cbn [sel_ix] in Hw.
        rewrite (zeros_like_sel _ d []) by auto. rewrite Hw; cbn [bind].
        unfold alloc. destruct out; cbn [point_result]; eexists; split; reflexivity.
  - (* outside, constant mode *)
    inversion Hp; subst pr; clear Hp. pose proof (extractN_none _ _ _ Hco); subst xm.
    cbn [valp] in Hw.
    destruct vv eqn:Evv.
    + unfold alloc in *. destruct out as [o|].
      { exfalso. destruct (Hout o eq_refl (or_introl eq_refl)). congruence. }
      destruct orders as [os|]; rewrite (extract1_ret_vv _ _ _ Hco); cbn [bind point_result];
        (eexists; split; [reflexivity|]; eexists; split; [reflexivity|]; split; [reflexivity|]);
        intros suf Hsuf; specialize (Hw suf Hsuf); cbn; congruence.
    + destruct orders as [os|].
      { unfold alloc in *. destruct out as [o|].
        - exfalso. destruct (Hout o eq_refl); [right; discriminate|congruence].
        - exfalso. apply Hs2. repeat split; auto; discriminate. }
      specialize (Hw [] eq_refl). inversion Hw as [Hw0]. 
      rewrite (extract1_ret_scalar _ _ _ _ Hco); cbn [bind point_result].
      unfold alloc. destruct out; eexists; split; try reflexivity; now rewrite <- Hw0.
Qed.

End Gen.
