(** The text of filter_cubic.py over the reals: the same coefficients as the text of prefilter_cubic.py. *)
From Coq Require Import ZArith List Bool String Lia Reals Lra.
From Verif Require Import Base BaseFacts SplineModel PrefilterModel Spec SpecBasis EvalRProps EvalR PrefilterR PrefilterProps ObjectR GradProps SpecGrad PySyntax PySem SpecText SpecPref SpecFilt SrcPrefilterCubic SrcFilterCubic SrcEvalCubicNumba PrefTop PrefR NumbaR NumbaText FiltTop.
Import ListNotations.
Open Scope list_scope.
Open Scope Z_scope.

Section Both.
Variables (g : list (R * R * Z)) (V : arr R) (dinvs : list R) (n m : nat).
Hypothesis Hv : valid_grid (unif_grid g).
Hypothesis Hd : (1 <= List.length g <= 4)%nat.
Hypothesis SV : ashape V = counts g.
Hypothesis Ld : List.length dinvs = List.length g.
Hypothesis Nd : List.Forall (fun x => x <> 0%R) dinvs.
Hypothesis Hn : (7 <= n)%nat.
Hypothesis Hm : (4 <= m)%nat.

Lemma V_ok : values_ok (unif_grid g) [] V.
Proof. split; [|now left]. now rewrite gsize_counts, app_nil_r. Qed.
Lemma dim_ok : supported_dim (unif_grid g).
Proof. unfold supported_dim. now rewrite unif_grid_length. Qed.

Lemma text_both : exists C C' j j',
  run_text prefilter_cubic_py n "prefilter" [PTup (tuples g); PArr 0 []] [] [OF V] = Ok (PArr 1 [], OF V :: OF C :: j) /\
  run_text filter_cubic_py m "filter_data" [PArr 0 []; PArr 1 []] [] [OF (vecT dinvs); OF V] = Ok (PArr 2 [], OF (vecT dinvs) :: OF V :: OF C' :: j') /\
  aeq C C' /\ coefs_ok 3 (unif_grid g) [] C' /\
  forall idx, inb (map (csize 3) (unif_grid g)) idx = true -> acell C' idx = PF (map gsize (unif_grid g)) (acell V) idx.
Proof.
  destruct (text_prefilter_R (unif_grid g) [] V [OF V] 0 (tuples g) [PTup (tuples g); PArr 0 []] [] n) as (C & j & E & HC & _); auto.
  { apply all_unif. } { apply dim_ok. } { apply V_ok. } { apply tuples_ok. } { right. right. right. auto. }
  destruct (filter_call (unif_grid g) [] V Hv (all_unif g) dim_ok V_ok) as (C1 & E1 & HC1 & F1).
  assert (HG : (big (ashape V))). { rewrite SV, <- gsize_counts. now apply big_sizes. }
  destruct (legacy_same (unif_grid g) V dinvs C1) as (C' & E' & A); auto.
  { apply all_unif. } { apply dim_ok. } { apply V_ok. } { now rewrite unif_grid_length. }
  assert (C1 = C) as ->.
  { assert (X : returns_new [OF V] (filter_alloc (unif_grid g) V) (run_text prefilter_cubic_py n "prefilter" [PTup (tuples g); PArr 0 []] [] [OF V])).
    { apply (top_alloc R6 R3 [OF V] 0 (unif_grid g) (counts g) [] V) with (vs := tuples g); auto.
      - split; [auto|]. rewrite app_nil_r. split; [auto|]. split; [|split].
        + rewrite SV in HG. eapply Forall_impl; [|exact HG]. cbn. intros; lia.
        + unfold counts. now rewrite unif_grid_length, map_length.
        + unfold counts. now rewrite map_length.
      - apply tuples_ok.
      - right. right. right. auto. }
    unfold filter_cubic in E1. destruct (filter_alloc (unif_grid g) V) as [C2|]; [|discriminate E1]. cbn in E1.
    injection E1 as E1. subst C2. destruct X as (j2 & X). pose proof (eq_trans (eq_sym E) X) as Y. clear X E. injection Y as Y _. exact (eq_sym Y). }
  destruct m as [|[|[|[|m']]]]; try lia.
  pose proof (text_filter_data R6 R3 m' [OF (vecT dinvs); OF V] 0 1 dinvs V eq_refl eq_refl) as X.
  rewrite E' in X. destruct X as (j' & X).
  { intros _. split.
    - eapply Forall_impl; [|exact HG]. cbn. intros; lia.
    - rewrite SV, Ld. unfold counts. now rewrite map_length. }
  exists C, C', j, j'. split; [exact E|]. split; [exact X|]. split; [exact A|].
  destruct A as (SA & A). split.
  { split; [|now left]. destruct HC1 as [HS _]. now rewrite <- SA. }
  intros idx Hi. rewrite <- A. 2:{ destruct HC1 as [HS _]. rewrite HS, app_nil_r. exact Hi. }
  specialize (F1 idx [] Hi eq_refl). rewrite app_nil_r in F1. rewrite F1.
  apply PF_ext; auto using big_sizes.
  - intros r _. now rewrite app_nil_r.
  - rewrite all2_csize; auto.
Qed.

(** [filter_data], then [eval_cubic_spline_d] at a node. *)
Lemma old_texts_interpolate p : exists C j,
  run_text filter_cubic_py m "filter_data" [PArr 0 []; PArr 1 []] [] [OF (vecT dinvs); OF V] = Ok (PArr 2 [], OF (vecT dinvs) :: OF V :: OF C :: j) /\
  forall idx, inb (counts g) idx = true ->
    let h := [OF (vecT (lower g)); OF (vecT (upper g)); OI (vecZ (counts g)); OF C; OF (vecT (node_at (unif_grid g) idx))] in
    run_text eval_cubic_numba_py (S p) (dim_name "eval_cubic_spline_" (List.length g)) (arrays 5) [] h = Ok (PFlt (acell V idx), h).
Proof.
  destruct text_both as (_ & C & _ & j & _ & E & _ & HC & F). exists C, j. split; [exact E|]. intros idx Hi h.
  assert (Hi' : inb (map gsize (unif_grid g)) idx = true) by now rewrite gsize_counts.
  assert (Hl : List.length (node_at (unif_grid g) idx) = List.length g) by (rewrite node_at_length by auto; apply unif_grid_length).
  destruct (text_spline_R g Hv Hd p C (node_at (unif_grid g) idx) HC Hl) as (v & Ev & Hval & _).
  assert (v = acell V idx) as <-; [|exact Ev].
  eapply value_at_unique; [exact Hval|].
  pose proof (node_in_domain _ Hv idx Hi') as Hdom.
  apply value_at_none; auto. { right; split; [reflexivity|apply all_unif]. } { now apply node_at_length. }
  rewrite xpoint_inside by auto. symmetry.
  rewrite <- (VR3_node _ Hv (acell V) idx Hi').
  apply VR_ext; auto using zeros_length, node_at_length. intros r Hr. rewrite app_nil_r. now apply F.
Qed.
End Both.

Lemma text_same g V dinvs n m : valid_grid (unif_grid g) -> (1 <= List.length g <= 4)%nat -> ashape V = counts g ->
  List.length dinvs = List.length g -> List.Forall (fun x => x <> 0%R) dinvs -> (7 <= n)%nat -> (4 <= m)%nat ->
  exists C C' j j',
    run_text prefilter_cubic_py n "prefilter" [PTup (tuples g); PArr 0 []] [] [OF V] = Ok (PArr 1 [], OF V :: OF C :: j) /\
    run_text filter_cubic_py m "filter_data" [PArr 0 []; PArr 1 []] [] [OF (vecT dinvs); OF V] = Ok (PArr 2 [], OF (vecT dinvs) :: OF V :: OF C' :: j') /\
    aeq C C'.
Proof.
  intros Hv Hd SV Ld Nd Hn Hm. destruct (text_both g V dinvs n m Hv Hd SV Ld Nd Hn Hm) as (C & C' & j & j' & E & E' & A & _).
  exists C, C', j, j'. split; [exact E|]. split; [exact E'|exact A].
Qed.
Lemma text_old_interpolates g V dinvs m p : valid_grid (unif_grid g) -> (1 <= List.length g <= 4)%nat -> ashape V = counts g ->
  List.length dinvs = List.length g -> List.Forall (fun x => x <> 0%R) dinvs -> (4 <= m)%nat ->
  exists C j,
    run_text filter_cubic_py m "filter_data" [PArr 0 []; PArr 1 []] [] [OF (vecT dinvs); OF V] = Ok (PArr 2 [], OF (vecT dinvs) :: OF V :: OF C :: j) /\
    forall idx, inb (counts g) idx = true ->
      let h := [OF (vecT (lower g)); OF (vecT (upper g)); OI (vecZ (counts g)); OF C; OF (vecT (node_at (unif_grid g) idx))] in
      run_text eval_cubic_numba_py (S p) (dim_name "eval_cubic_spline_" (List.length g)) (arrays 5) [] h = Ok (PFlt (acell V idx), h).
Proof. intros Hv Hd SV Ld Nd Hm. exact (old_texts_interpolate g V dinvs 7 m Hv Hd SV Ld Nd (le_n 7) Hm p). Qed.
