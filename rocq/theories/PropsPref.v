(** C63: prefilter_cubic.py as it is written.  [run_text] parses the embedded text and interprets it
    (PySyntax.v, PySem.v). *)
From Coq Require Import ZArith List Bool String Reals QArith PrimFloat.
From Verif Require Import Base SplineModel PrefilterModel Spec SpecBasis SpecGrad GradCases PySyntax PySem SpecText SpecPref SrcPrefilterCubic SrcEvalCubicNumba PrefTop PrefR PrefCases.
Import ListNotations.
Open Scope list_scope.
Open Scope Z_scope.

(** In any arithmetic in which 6 and 3 are not 0, in 1 to 4 dimensions, each uniform or not: [prefilter(grid, V)]
    returns a new array, that of the model, or raises what the model raises. *)
Theorem C63_allocating_text (T : Type) (NT : Num T) (h : heap T) kd grid dims comps D n us ks vs :
  n_is0 (n_ofZ (T := T) 6) = false -> n_is0 (n_ofZ (T := T) 3) = false ->
  data_arg h kd grid dims comps D -> (List.length comps <= 1)%nat -> Forall2 (dim_arg h) vs grid ->
  prefilter_call us ks (PTup vs) (PArr kd []) PNone 3 -> (List.length comps + 7 <= n)%nat ->
  returns_new h (filter_alloc grid D) (run_text prefilter_cubic_py n "prefilter" us ks h).
Proof. intros H6 H3 HD Hc Hg Hp Hn. exact (top_alloc H6 H3 h kd grid dims comps D HD n us ks vs Hn Hc Hg Hp). Qed.
Print Assumptions C63_allocating_text.
(** [prefilter(grid, V, out)] writes [out] and nothing else, with any number of component axes. *)
Theorem C63_inplace_text (T : Type) (NT : Num T) (h : heap T) kd grid dims comps D n us ks vs kc C0 :
  n_is0 (n_ofZ (T := T) 6) = false -> n_is0 (n_ofZ (T := T) 3) = false ->
  data_arg h kd grid dims comps D -> kd <> kc -> nth_error h kc = Some (OF C0) ->
  ashape C0 = map (fun m => m + 2) dims ++ comps -> grid_arg h kc vs grid ->
  prefilter_call us ks (PTup vs) (PArr kd []) (PArr kc []) 3 -> (List.length comps + 6 <= n)%nat ->
  overwrites h kc (filter_inplace grid D C0) (run_text prefilter_cubic_py n "prefilter" us ks h).
Proof. intros H6 H3 HD Hne HC SC Hg Hp Hn. exact (top_inplace H6 H3 h kd grid dims comps D HD n us ks vs kc C0 Hn Hne HC SC Hg Hp). Qed.
Print Assumptions C63_inplace_text.
(** k = 1 returns V itself and does not read [out]; any k but 1 and 3 is rejected. *)
Theorem C63_linear_text (T : Type) (NT : Num T) n us ks g V out (h : heap T) : prefilter_call us ks g V out 1 ->
  run_text prefilter_cubic_py (S (S n)) "prefilter" us ks h = Ok (V, h).
Proof. exact (top_linear n us ks g V out h). Qed.
Print Assumptions C63_linear_text.
Theorem C63_rejected_text (T : Type) (NT : Num T) n us ks g V out k (h : heap T) : prefilter_call us ks g V out k -> k <> 1 -> k <> 3 ->
  run_text prefilter_cubic_py (S (S n)) "prefilter" us ks h = Err TypeErr.
Proof. exact (top_rejects n us ks g V out k h). Qed.
Print Assumptions C63_rejected_text.
(** Over the reals: the coefficients computed by the text interpolate, for [eval_spline] in each
    extrapolation mode and for the text of eval_cubic_numba.py. *)
Theorem C63_text_interpolates grid comps V (h : heap R) kd vs us ks n :
  valid_grid grid -> all_uniform grid -> supported_dim grid -> values_ok grid comps V ->
  nth_error h kd = Some (OF V) -> Forall2 (dim_arg h) vs grid ->
  prefilter_call us ks (PTup vs) (PArr kd []) PNone 3 -> (List.length comps + 7 <= n)%nat ->
  exists C junk, run_text prefilter_cubic_py n "prefilter" us ks h = Ok (PArr (List.length h) [], h ++ OF C :: junk) /\
    coefs_ok 3 grid comps C /\
    forall xm idx suf, inb (map gsize grid) idx = true -> inb comps suf = true ->
      value_at 3 None xm grid comps C (node_at grid idx) suf (acell V (idx ++ suf)).
Proof. exact (text_prefilter_R grid comps V h kd vs us ks n). Qed.
Print Assumptions C63_text_interpolates.
Theorem C63_texts_interpolate g V n m : valid_grid (unif_grid g) -> (1 <= List.length g <= 4)%nat -> ashape V = counts g -> (7 <= n)%nat ->
  exists C junk, run_text prefilter_cubic_py n "prefilter" [PTup (tuples g); PArr 0 []] [] [OF V] = Ok (PArr 1 [], OF V :: OF C :: junk) /\
    forall idx, inb (counts g) idx = true ->
      let h := [OF (vecT (lower g)); OF (vecT (upper g)); OI (vecZ (counts g)); OF C; OF (vecT (node_at (unif_grid g) idx))] in
      run_text eval_cubic_numba_py (S m) (dim_name "eval_cubic_spline_" (List.length g)) (arrays 5) [] h = Ok (PFlt (acell V idx), h).
Proof. exact (texts_interpolate g V n m). Qed.
Print Assumptions C63_texts_interpolate.
Theorem C63_texts_interpolate_vectors g ns V n m vals : valid_grid (unif_grid g) -> (1 <= List.length g <= 4)%nat ->
  ashape V = counts g ++ [ns] -> 0 <= ns -> ashape vals = [ns] -> (8 <= n)%nat ->
  exists C junk, run_text prefilter_cubic_py n "prefilter" [PTup (tuples g); PArr 0 []] [] [OF V] = Ok (PArr 1 [], OF V :: OF C :: junk) /\
    forall idx, inb (counts g) idx = true ->
      let h o := [OF (vecT (lower g)); OF (vecT (upper g)); OI (vecZ (counts g)); OF C; OF (vecT (node_at (unif_grid g) idx)); OF o] in
      exists o, run_text eval_cubic_numba_py (S m) (dim_name "eval_cubic_splines_" (List.length g)) (arrays 6) [] (h vals) = Ok (PNone, h o) /\
        ashape o = [ns] /\ forall k, 0 <= k < ns -> acell o [k] = acell V (idx ++ [k]).
Proof. exact (texts_interpolate_vector g ns V n m vals). Qed.
Print Assumptions C63_texts_interpolate_vectors.
Example C63_case (T : Type) (NT : Num T) : data_arg ph 0 pg [3; 4] [2] (pV (T := T)) /\ grid_arg ph 2 pvs (pg (T := T)) /\
  nth_error ph 2 = Some (OF (pC (T := T))) /\ ashape (pC (T := T)) = map (fun m => m + 2) [3; 4] ++ [2].
Proof. exact case_data. Qed.
Example C63_case_floats : n_is0 (n_ofZ (T := float) 6) = false /\ n_is0 (n_ofZ (T := float) 3) = false.
Proof. split; reflexivity. Qed.
Example C63_case_grid : valid_grid (unif_grid g2) /\ (1 <= List.length g2 <= 4)%nat.
Proof. split; [exact g2_valid|cbn; split; repeat constructor]. Qed.
(** Computed: the two texts one after the other, data 22 at the node (1, 2) of a 3 x 4 grid. *)
Example C63_case_computed : match filtered with Some C => node_value C | None => None end = Some 22%Q.
Proof. exact case_texts. Qed.
