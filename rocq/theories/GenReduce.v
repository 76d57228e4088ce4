(** The blocks of the generated programs that read the coefficients and write the output. *)
From Coq Require Import ZArith List Bool String Lia.
From Verif Require Import Base BaseFacts SplineModel PySyntax PySem PySemFacts SpecText GenModel GenNames GenPhase GenBlocks.
Import ListNotations.
Open Scope list_scope.
Open Scope Z_scope.
Open Scope num_scope.

Section Reduce.
Context {T : Type} {NT : Num T}.
Variable G : env T.
Variable call : string -> list (val T) -> list (string * val T) -> heap T -> res (val T * heap T).
Variable fuel : nat.
Notation eval := (eval G call).
Notation subs := (subs G call).
Notation exec := (exec G call fuel).
Notation block := (block G call fuel).
Notation goes := (goes G call fuel).
Implicit Types (E : env T) (h : heap T).

Lemma subs_app E h a za : forall b zb, subs E a h = Ok (za, h) -> subs E b h = Ok (zb, h) -> subs E (a ++ b) h = Ok (za ++ zb, h).
Proof.
  assert (X : forall a h0 za b zb, subs E a h0 = Ok (za, h) -> subs E b h = Ok (zb, h) -> subs E (a ++ b) h0 = Ok (za ++ zb, h)).
  { clear a za. intros a. induction a as [|e a IH]; intros h0 za b zb Ha Hb.
    - cbn in Ha. injection Ha as <- ->. exact Hb.
    - cbn [app PySem.subs] in *. fold subs in *. apply bind_ok in Ha as ([s h1] & H1 & H2). rewrite H1. cbn [bind].
      apply bind_ok in H2 as ([q h2] & H2 & H3). injection H3 as <- ->. rewrite (IH _ _ _ _ H2 Hb). reflexivity. }
  eauto.
Qed.

(** ** Tensor reductions *)
Lemma plus_eval E h es xs : Forall2 (fun e x => eval E e h = Ok (PFlt x, h)) es xs -> eval E (plus_left es) h = Ok (PFlt (add_left xs), h).
Proof.
  intros H. destruct H as [|e x es xs He H]; [reflexivity|]. cbn [plus_left add_left]. revert e x He.
  induction H as [|e' x' es xs He' H IH]; intros e x He; [exact He|]. cbn [fold_left]. apply IH.
  eapply ev_bin; eauto; reflexivity.
Qed.
Lemma terms_eval E h l i (q : list Z -> expr) (t : list Z -> res T) inds : forall ws j ys,
  (forall m w, nth_error ws m = Some w -> E (phi l i (j + m)) = Some (PFlt w)) ->
  (forall z v, 0 <= z -> t (inds ++ [z]) = Ok v -> eval E (q (inds ++ [z])) h = Ok (PFlt v, h)) ->
  mapM (fun ih => v <- t (inds ++ [fst ih]) ;; Ok (snd ih *! v)) (enum_from (Z.of_nat j) ws) = Ok ys ->
  Forall2 (fun e x => eval E e h = Ok (PFlt x, h))
    (map (fun ih => EBin "*" (snd ih) (q (inds ++ [fst ih]))) (enum_from (Z.of_nat j) (map (fun j => EName (phi l i j)) (seq j (List.length ws))))) ys.
Proof.
  induction ws as [|w ws IH]; intros j ys Hw Hq H; cbn [mapM enum_from List.length seq map] in *.
  - injection H as <-. constructor.
  - apply bind_ok in H as (y & H1 & H). apply bind_ok in H as (ys' & H2 & H). injection H as <-.
    apply bind_ok in H1 as (v & H1 & H3). injection H3 as <-. cbn [fst snd] in *. constructor.
    + eapply ev_bin; [apply ev_name; rewrite <- (Nat.add_0_r j); now apply (Hw 0%nat)|apply Hq; eauto; lia|reflexivity].
    + replace (Z.of_nat j + 1) with (Z.of_nat (S j)) in * by lia. apply IH; auto.
      intros m w' Hm. replace (S j + m)%nat with (j + S m)%nat by lia. now apply Hw.
Qed.
Lemma trex_eval E h n (c : list Z -> expr) (cm : list Z -> res T) : forall oo phis i0 inds v,
  List.length oo = List.length phis ->
  (forall i l ws, nth_error oo i = Some l -> nth_error phis i = Some ws -> List.length ws = n /\ ws_env (i0 + i) l ws E) ->
  (forall inds v, List.length inds = (i0 + List.length oo)%nat -> Forall (fun z => 0 <= z) inds -> cm inds = Ok v -> eval E (c inds) h = Ok (PFlt v, h)) ->
  List.length inds = i0 -> Forall (fun z => 0 <= z) inds ->
  trex phis cm inds = Ok v -> eval E (gen_trex (weights n i0 oo) c inds) h = Ok (PFlt v, h).
Proof.
  induction oo as [|l oo IH]; intros [|ws phis] i0 inds v Hl Hw Hc Hi Hp H; try discriminate; cbn [weights gen_trex trex] in *.
  - apply Hc; auto. cbn. lia.
  - apply bind_ok in H as (ys & H & E1). injection E1 as <-. destruct (Hw 0%nat l ws) as [Hn H0]; auto. rewrite Nat.add_0_r in H0.
    apply plus_eval. rewrite <- Hn. apply (terms_eval E h l i0 (gen_trex (weights (List.length ws) (S i0) oo) c) (trex phis cm) inds ws 0 ys).
    + intros m w Hm. now apply H0.
    + intros z v Hz Hv. rewrite Hn. apply (IH phis (S i0)); auto.
      * intros i l' ws' H1 H2. replace (S i0 + i)%nat with (i0 + S i)%nat by lia. now apply Hw.
      * intros inds' v' Hl'. apply Hc. rewrite Hl'. cbn [List.length]. lia.
      * rewrite app_length. cbn [List.length]. lia.
      * apply Forall_app. auto.
    + exact H.
Qed.

Lemma blend_length k l lam del ws : blend k l lam del = Ok ws -> List.length ws = Z.to_nat (k + 1).
Proof.
  unfold blend. destruct (Z.eqb_spec k 1) as [->|_].
  - unfold blend_linear. destruct (l =? 0); [intros [= <-]; reflexivity|]. destruct (l =? 1); [|intros [= <-]; reflexivity].
    intros H. apply bind_ok in H as (p0 & _ & H). apply bind_ok in H as (p1 & _ & H). injection H as <-. reflexivity.
  - destruct (Z.eqb_spec k 3) as [->|_]; [|discriminate]. unfold blend_cubic. destruct (l =? 0); [intros [= <-]; reflexivity|].
    destruct (l =? 1); [intros [= <-]; reflexivity|discriminate].
Qed.

Lemma cells_subs E h : forall inds brs i0, List.length inds = List.length brs -> Forall (fun z => 0 <= z) inds ->
  (forall i br, nth_error brs i = Some br -> br_env (i0 + i) br E) ->
  subs E (cell_subs i0 inds) h = Ok (map SIx (map2 Z.add (map (fun br : Z * T * T => fst (fst br)) brs) inds), h).
Proof.
  induction inds as [|j inds IH]; intros [|[[z lam] del] brs] i0 Hl Hp Hb; try discriminate; [reflexivity|].
  inversion Hp as [|? ? Hj Hp']; subst. destruct (Hb 0%nat _ eq_refl) as (Hz & _). rewrite Nat.add_0_r in Hz.
  cbn [cell_subs map map2 fst]. apply subs_cons.
  - unfold cell_sub. destruct (Z.ltb_spec 0 j).
    + eapply ev_bin; [apply ev_name; exact Hz|apply ev_int|reflexivity].
    + replace (z + j) with z by lia. apply ev_name. exact Hz.
  - apply IH; auto. intros i br Hi. replace (S i0 + i)%nat with (i0 + S i)%nat by lia. now apply Hb.
Qed.

(** ** One value *)
Section Value.
Variable k : Z.
Variable brs : list (Z * T * T).
Variable used : nat -> list Z.            (* the orders of each dimension *)
Variable C : arr T.
Variable Cv : val T.

Definition ready E : Prop :=
  (forall i br, nth_error brs i = Some br -> br_env i br E) /\
  (forall i z lam del, nth_error brs i = Some (z, lam, del) -> forall l, In l (used i) -> forall ws, blend k l lam del = Ok ws -> ws_env i l ws E).
Lemma mapM2_nth {A B D} (f : A -> B -> res D) : forall l m r, mapM2 f l m = Ok r ->
  List.length m = List.length l /\ List.length r = List.length l /\
  forall i a b c, nth_error l i = Some a -> nth_error m i = Some b -> nth_error r i = Some c -> f a b = Ok c.
Proof.
  induction l as [|a l IH]; intros [|b m] r H; cbn [mapM2] in H; try discriminate.
  - injection H as <-. repeat split; auto. intros [|i] ? ? ? H; discriminate.
  - apply bind_ok in H as (c & H1 & H). apply bind_ok in H as (cs & H2 & H). injection H as <-. destruct (IH _ _ H2) as (L1 & L2 & N).
    cbn [List.length]. repeat split; auto. intros [|i] a' b' c' Ha Hb Hc; cbn in *; [congruence|eauto].
Qed.

Lemma value_eval E h oo ix ixz v : ready E -> E "C"%string = Some Cv -> reads h Cv C ->
  (forall i l, nth_error oo i = Some l -> In l (used i)) -> subs E ix h = Ok (map SIx ixz, h) ->
  get_value k brs oo C ixz = Ok v -> eval E (gen_values k oo ix) h = Ok (PFlt v, h).
Proof.
  intros [HB HW] HC HR HU HI H. unfold get_value in H. apply bind_ok in H as (phis & H1 & H2).
  apply mapM2_nth in H1 as (L1 & L2 & N). unfold gen_values. eapply trex_eval; [| | | | |exact H2]; auto; [lia| |].
  - intros i l ws Hl Hws. destruct (nth_error brs i) as [[[z lam] del]|] eqn:Hb.
    + pose proof (N i _ _ _ Hb Hl Hws) as Hbl. cbn in Hbl. split; [eapply blend_length; eauto|]. cbn [Nat.add]. eapply HW; eauto.
    + exfalso. apply nth_error_None in Hb. assert (nth_error oo i <> None) by congruence. apply nth_error_Some in H. lia.
  - intros inds w Hl Hp Hg. destruct (aget_inv _ _ _ Hg) as [B ->].
    eapply ev_sub; [apply ev_name; exact HC| |].
    + eapply subs_app; [apply (cells_subs E h inds brs 0); auto; lia|exact HI].
    + rewrite <- map_app. apply reads_sub; auto.
Qed.
End Value.

(** ** The output array: location [lo] of the heap [h1], the other locations do not change. *)
Variable h1 : heap T.
Variable lo : nat.
Hypothesis Hlo : (lo < List.length h1)%nat.
Definition st (om : arr T) h : Prop := exists o, h = hset h1 lo (OF o) /\ aeq o om.
Definition apart (v : val T) : Prop := forall w, v <> PArr lo w.
Lemma reads_st v a om h : reads h1 v a -> apart v -> st om h -> reads h v a.
Proof.
  intros H A (o & -> & _). unfold reads, array_of in *. destruct v; auto. unfold hget in *. rewrite nth_hset_other; auto.
  intros Hk; subst. exact (A _ eq_refl).
Qed.
Lemma st_aset om h zs v om' : st om h -> aset om zs v = Ok om' -> exists h', store h (PArr lo []) (map SIx zs) (PFlt v) = Ok h' /\ st om' h'.
Proof.
  intros (o & -> & Ho) H. unfold aset in H. destruct (inb (ashape om) zs) eqn:B; [|destruct (zlen zs =? zlen (ashape om)); discriminate].
  injection H as <-. pose proof (inb_length _ _ B) as L. assert (N : Forall (fun z => 0 <= z) zs).
  { apply inb_spec in B. clear -B. induction B; constructor; auto. lia. }
  assert (A : forall zs, all_ix (map SIx zs) = Some zs) by (clear; induction zs; cbn; auto; now rewrite IHzs).
  destruct Ho as [S Ho].
  exists (hset h1 lo (OF (mkArr (ashape o) (fun j => if idx_eqb j zs then v else acell o j)))). split.
  - cbn [store]. unfold hget. rewrite nth_hset_same by auto. cbn [bind oshape]. rewrite A, vshape_nil, L, <- S, Nat.eqb_refl, wraps_pos by auto.
    cbn [vmerge oset]. unfold aset. rewrite S, B. cbn [bind]. now rewrite hset_hset.
  - eexists. split; [reflexivity|]. split; [exact S|]. cbn [ashape acell]. intros idx Hi. destruct (idx_eqb idx zs); auto.
Qed.
Lemma exec_store om h E es zs e v om' : st om h -> E "out"%string = Some (PArr lo []) -> subs E es h = Ok (map SIx zs, h) ->
  eval E e h = Ok (PFlt v, h) -> aset om zs v = Ok om' ->
  exists h', exec (SAssign [ESub (EName "out") es] e) E h = Ok (Nxt, E, h') /\ st om' h'.
Proof.
  intros Hst Ho Hs He Ha. destruct (st_aset om h zs v om' Hst Ha) as (h' & H1 & H2). exists h'. split; auto.
  cbn [PySem.exec]. rewrite He. cbn [bind PySem.assign_all PySem.assign]. rewrite (ev_name G call E "out" h _ Ho). cbn [bind]. rewrite Hs. cbn [bind].
  rewrite H1. reflexivity.
Qed.

(** Fills *)
Definition free (s : option sidx) : Prop := match s with Some (SIx _) => False | _ => True end.
Lemma vsub_free : forall sh l, Forall free l -> vsub (repeat None (List.length sh)) sh l = repeat None (List.length sh).
Proof.
  induction sh as [|n sh IH]; intros l Hl; auto. cbn [List.length repeat vsub]. destruct l as [|s l].
  - now rewrite IH.
  - inversion Hl; subst. rewrite IH by auto. destruct s as [[]|]; auto. contradiction.
Qed.
Lemma vok_free : forall sh, vok (repeat None (List.length sh)) sh = true.
Proof. induction sh; cbn; auto. Qed.
Lemma vproj_free : forall n idx, List.length idx = n -> vproj (repeat None n) idx = Some idx.
Proof. induction n as [|n IH]; intros [|z idx] H; try discriminate; auto. cbn. now rewrite IH by (cbn in H; lia). Qed.
Lemma free_none n : Forall free (repeat None n).
Proof. induction n; cbn; constructor; auto. exact I. Qed.
Lemma fill_all om h E : st om h -> E "out"%string = Some (PArr lo []) ->
  exists h', exec (SAssign [ESub (EName "out") [all_sub]] f0) E h = Ok (Nxt, E, h') /\ st (afill0 om) h'.
Proof.
  intros (o & -> & S & Ho) HE. eexists. split.
  - cbn [PySem.exec]. rewrite ev_f0. cbn [bind PySem.assign_all PySem.assign]. rewrite (ev_name G call E "out" _ _ HE). cbn [bind].
    rewrite (subs_all G call E _ _ _ (subs_nil G call E _)). cbn [bind store]. unfold hget. rewrite nth_hset_same by auto. cbn [bind oshape all_ix].
    rewrite vshape_nil. cbn [full]. rewrite vsub_free.
    + rewrite vok_free. cbn [num ofill_num bind]. rewrite hset_hset. reflexivity.
    + cbn [expand]. constructor; [exact I|apply free_none].
  - eexists. split; [reflexivity|]. split; [exact S|]. cbn [ashape acell afill0]. intros idx Hi. rewrite vproj_free; auto. now apply inb_length in Hi.
Qed.
Lemma fill_row om h E nn om' (vv : bool) : st om h -> E "out"%string = Some (PArr lo []) -> E "nn"%string = Some (PInt nn) -> 0 <= nn ->
  (vv = true -> 2 <= andim om) -> afill_row0 om nn = Ok om' ->
  exists h', exec (SAssign [ESub (EName "out") (EName "nn" :: if vv then [all_sub] else [])] f0) E h = Ok (Nxt, E, h') /\ st om' h'.
Proof.
  intros Hst HE Hn Hp Hr Hf.
  assert (Hs : subs E (EName "nn" :: if vv then [all_sub] else []) h = Ok (SIx nn :: (if vv then [SAll] else []), h)).
  { eapply subs_cons; [now apply ev_name|]. destruct vv; [|apply subs_nil]. apply subs_all. apply subs_nil. }
  destruct Hst as (o & -> & S & Ho). unfold afill_row0 in Hf. destruct (ashape om) as [|n sh] eqn:So; [discriminate|].
  destruct ((0 <=? nn) && (nn <? n)) eqn:B; [|discriminate]. injection Hf as <-.
  assert (X : exists o', store (hset h1 lo (OF o)) (PArr lo []) (SIx nn :: (if vv then [SAll] else [])) (PFlt (n_ofZ 0)) = Ok (hset h1 lo (OF o')) /\
    ashape o' = n :: sh /\ forall j0 j, inb (n :: sh) (j0 :: j) = true -> acell o' (j0 :: j) = if j0 =? nn then n_ofZ 0 else acell o (j0 :: j)).
  { cbn [store]. unfold hget. rewrite nth_hset_same by auto. cbn [bind oshape]. rewrite vshape_nil, S.
    assert (F : forall l, Forall free l -> vsub (full [] (n :: sh)) (n :: sh) (Some (SIx nn) :: l) = Some nn :: repeat None (List.length sh)).
    { intros l Hl. cbn [full List.length repeat vsub]. now rewrite wrap_pos, vsub_free by auto. }
    destruct vv.
    - cbn [all_ix expand List.length pred]. rewrite F by (constructor; [exact I|apply free_none]).
      cbn [vok]. rewrite vok_free, andb_true_r, B. cbn [num ofill_num bind]. rewrite hset_hset.
      eexists. split; [reflexivity|]. split; [exact S|]. intros j0 j Hj. cbn [acell vproj].
      destruct (j0 =? nn); auto. rewrite vproj_free; auto. apply inb_length in Hj. cbn in Hj. lia.
    - cbn [all_ix List.length]. destruct sh as [|m sh].
      + cbn [List.length Nat.eqb]. cbn [vmerge oset]. rewrite wraps_pos by (constructor; auto). unfold aset. rewrite S. cbn [inb]. rewrite B. cbn [andb bind].
        rewrite hset_hset. eexists. split; [reflexivity|]. split; [reflexivity|]. intros j0 j Hj. cbn [acell idx_eqb]. destruct j; [|cbn in Hj; rewrite andb_false_r in Hj; discriminate].
        cbn. now rewrite andb_true_r.
      + cbn [List.length Nat.eqb]. change (Nat.ltb 1 (Datatypes.S (Datatypes.S (List.length sh)))) with true. cbv iota. cbn [expand]. rewrite F by apply free_none.
        cbn [vok]. fold (@vok). change (vok (None :: repeat None (List.length sh)) (m :: sh)) with (vok (repeat None (List.length (m :: sh))) (m :: sh)).
        rewrite vok_free, andb_true_r, B. cbn [num ofill_num bind]. rewrite hset_hset.
        eexists. split; [reflexivity|]. split; [exact S|]. intros j0 j Hj. cbn [acell vproj].
        destruct (j0 =? nn); auto. rewrite vproj_free; auto. apply inb_length in Hj. cbn in *. lia. }
  destruct X as (o' & X1 & X2 & X3). exists (hset h1 lo (OF o')). split.
  - cbn [PySem.exec]. rewrite ev_f0. cbn [bind PySem.assign_all PySem.assign]. rewrite (ev_name G call E "out" _ _ HE). cbn [bind].
    rewrite Hs. cbn [bind]. rewrite X1. reflexivity.
  - exists o'. split; [reflexivity|]. split; [cbn; rewrite X2; auto|]. cbn [ashape acell]. rewrite X2. intros [|j0 j] Hj; [discriminate|].
    rewrite X3 by auto. destruct (j0 =? nn); auto. apply Ho. now rewrite S.
Qed.
End Reduce.
