(** The text of [prefilter] over the reals, alone and followed by the text of eval_cubic_numba.py. *)
From Coq Require Import ZArith List Bool String Lia Reals Lra.
From Flocq Require Import Core.Raux.
From Verif Require Import Base BaseFacts SplineModel PrefilterModel Spec SpecBasis EvalRProps PrefilterProps ObjectR GradProps SpecGrad PySyntax PySem SpecText SpecPref SrcPrefilterCubic SrcEvalCubicNumba PrefTop NumbaR NumbaText.
Import ListNotations.
Open Scope list_scope.
Open Scope Z_scope.

Lemma R6 : n_is0 (n_ofZ (T := R) 6) = false.
Proof. cbn. apply Req_bool_false. apply IZR_neq. lia. Qed.
Lemma R3 : n_is0 (n_ofZ (T := R) 3) = false.
Proof. cbn. apply Req_bool_false. apply IZR_neq. lia. Qed.

Lemma value_at_unique k grid comps C pt suf (v w : R) :
  value_at k None XLinear grid comps C pt suf v -> value_at k None XLinear grid comps C pt suf w -> v = w.
Proof.
  intros [_ H1] [_ H2]. assert (F : single_point_form XLinear grid comps None) by (split; [now left|intros (X & _); discriminate]).
  destruct (H1 F) as (r & E1 & V1). destruct (H2 F) as (r' & E2 & V2). rewrite E1 in E2. injection E2 as <-. congruence.
Qed.

Lemma text_prefilter_R grid comps V (h : heap R) kd vs us ks n :
  valid_grid grid -> all_uniform grid -> supported_dim grid -> values_ok grid comps V ->
  nth_error h kd = Some (OF V) -> Forall2 (dim_arg h) vs grid ->
  prefilter_call us ks (PTup vs) (PArr kd []) PNone 3 -> (List.length comps + 7 <= n)%nat ->
  exists C junk, run_text prefilter_cubic_py n "prefilter" us ks h = Ok (PArr (List.length h) [], h ++ OF C :: junk) /\
    coefs_ok 3 grid comps C /\
    forall xm idx suf, inb (map gsize grid) idx = true -> inb comps suf = true ->
      value_at 3 None xm grid comps C (node_at grid idx) suf (acell V (idx ++ suf)).
Proof.
  intros Hv Hu Hs Hw HD Hg Hc Hn.
  assert (Lc : (List.length comps <= 1)%nat) by (destruct Hw as (_ & [->|(nx & -> & _)]); cbn; lia).
  assert (DA : data_arg h kd grid (map gsize grid) comps V).
  { split; [auto|]. destruct Hw as (Sw & _). split; [auto|]. rewrite map_length. split; [|split; [auto|exact Hs]].
    rewrite Forall_map. eapply Forall_impl; [|exact Hv]. intros g (X & _). lia. }
  pose proof (top_alloc R6 R3 h kd grid _ comps V DA n us ks vs Hn Lc Hg Hc) as X.
  destruct (filter_total grid comps V Hv Hu Hs Hw) as ((C & HC & SC) & _).
  assert (FA : filter_alloc grid V = Ok C).
  { unfold filter_cubic in HC. destruct (filter_alloc grid V) as [C'|]; [|discriminate]. cbn in HC. congruence. }
  rewrite FA in X. destruct X as (junk & X). exists C, junk. split; [exact X|]. split.
  - split; [|apply Hw]. rewrite SC, map_map. f_equal. apply map_ext. intros g. unfold csize. lia.
  - intros xm idx suf Hi Hsf.
    destruct (prefilter_interpolates 3 xm grid comps V idx suf) as (C' & E & Y); auto.
    unfold prefilter in E. cbn [Z.eqb Pos.eqb] in E. rewrite HC in E. injection E as <-. exact Y.
Qed.

(** [prefilter] then [eval_cubic_spline_d] / [eval_cubic_splines_d] at a node. *)

Lemma tuples_ok (h : heap R) g : Forall2 (dim_arg h) (tuples g) (unif_grid g).
Proof. unfold tuples. rewrite unif_grid_map. induction g as [|[[a b] n] g IH]; cbn; constructor; cbn; auto. Qed.

Lemma texts_interpolate g V n m : valid_grid (unif_grid g) -> (1 <= List.length g <= 4)%nat -> ashape V = counts g -> (7 <= n)%nat ->
  exists C junk, run_text prefilter_cubic_py n "prefilter" [PTup (tuples g); PArr 0 []] [] [OF V] = Ok (PArr 1 [], OF V :: OF C :: junk) /\
    forall idx, inb (counts g) idx = true ->
      let h := [OF (vecT (lower g)); OF (vecT (upper g)); OI (vecZ (counts g)); OF C; OF (vecT (node_at (unif_grid g) idx))] in
      run_text eval_cubic_numba_py (S m) (dim_name "eval_cubic_spline_" (List.length g)) (arrays 5) [] h = Ok (PFlt (acell V idx), h).
Proof.
  intros Hv Hd SV Hn.
  destruct (text_prefilter_R (unif_grid g) [] V [OF V] 0 (tuples g) [PTup (tuples g); PArr 0 []] [] n) as (C & junk & E & HC & HI); auto.
  - apply all_unif.
  - unfold supported_dim. now rewrite unif_grid_length.
  - split; [|now left]. now rewrite gsize_counts, app_nil_r.
  - apply tuples_ok.
  - right. right. right. auto.
  - exists C, junk. split; [exact E|]. intros idx Hi h.
    assert (Hi' : inb (map gsize (unif_grid g)) idx = true) by now rewrite gsize_counts.
    assert (Hl : List.length (node_at (unif_grid g) idx) = List.length g) by (rewrite node_at_length by auto; apply unif_grid_length).
    destruct (text_spline_R g Hv Hd m C (node_at (unif_grid g) idx) HC Hl) as (v & Ev & Hval & _).
    assert (v = acell V idx).
    { eapply value_at_unique; [exact Hval|]. specialize (HI XLinear idx [] Hi' eq_refl). now rewrite app_nil_r in HI. }
    subst v. exact Ev.
Qed.
Lemma texts_interpolate_vector g ns V n m vals : valid_grid (unif_grid g) -> (1 <= List.length g <= 4)%nat -> ashape V = counts g ++ [ns] -> 0 <= ns -> ashape vals = [ns] -> (8 <= n)%nat ->
  exists C junk, run_text prefilter_cubic_py n "prefilter" [PTup (tuples g); PArr 0 []] [] [OF V] = Ok (PArr 1 [], OF V :: OF C :: junk) /\
    forall idx, inb (counts g) idx = true ->
      let h o := [OF (vecT (lower g)); OF (vecT (upper g)); OI (vecZ (counts g)); OF C; OF (vecT (node_at (unif_grid g) idx)); OF o] in
      exists o, run_text eval_cubic_numba_py (S m) (dim_name "eval_cubic_splines_" (List.length g)) (arrays 6) [] (h vals) = Ok (PNone, h o) /\
        ashape o = [ns] /\ forall k, 0 <= k < ns -> acell o [k] = acell V (idx ++ [k]).
Proof.
  intros Hv Hd SV Hns Sv Hn.
  destruct (text_prefilter_R (unif_grid g) [ns] V [OF V] 0 (tuples g) [PTup (tuples g); PArr 0 []] [] n) as (C & junk & E & HC & HI); auto.
  - apply all_unif.
  - unfold supported_dim. now rewrite unif_grid_length.
  - split; [|right; eauto]. now rewrite gsize_counts.
  - apply tuples_ok.
  - right. right. right. auto.
  - exists C, junk. split; [exact E|]. intros idx Hi h.
    assert (Hi' : inb (map gsize (unif_grid g)) idx = true) by now rewrite gsize_counts.
    assert (Hl : List.length (node_at (unif_grid g) idx) = List.length g) by (rewrite node_at_length by auto; apply unif_grid_length).
    destruct (text_splines_R g Hv Hd m C ns (node_at (unif_grid g) idx) vals HC Hl Sv) as (o & Eo & So & Hval).
    exists o. split; [exact Eo|]. split; [exact So|]. intros k Hk. destruct (Hval k Hk) as (Hval' & _).
    eapply value_at_unique; [exact Hval'|]. apply (HI XLinear idx [k] Hi'). cbn. rewrite andb_true_r. apply andb_true_intro. split; [apply Z.leb_le|apply Z.ltb_lt]; lia.
Qed.
