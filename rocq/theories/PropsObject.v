(** Properties of the spline objects and of the legacy functions: C47, C48, C55, C56, C60. *)
From Coq Require Import ZArith List Reals QArith.
From Coq Require Floats.
From Verif Require Import Base SplineModel PrefilterModel Spec CartesianModel SmolyakModel SpecBasis SpecGrad ObjectModel SpecObject ObjectProps ObjectR ObjectMore ObjectGrid ObjectAccept.
Import ListNotations.
Open Scope Z_scope.

(** C47, any arithmetic.  A history is any list of [set_values] calls (accepted or rejected) and
    of writes of the caller to its own arrays. *)
Theorem C47_cubic_spline {T} {NT : Num T} a b orders (m : memory T) h s0 s m' last :
  cs_new a b orders None = Ok s0 -> after cs_step h s0 m None = (s, m', last) ->
  exists s1, cs_new a b orders (option_map snd last) = Ok s1 /\ forall junk p,
    (forall v wd, cs_interpolate junk s p v wd = cs_interpolate junk s1 p v wd) /\ cs_call junk s p = cs_call junk s1 p.
Proof. exact (cubic_history a b orders m h s0 s m' last). Qed.
Print Assumptions C47_cubic_spline.
Theorem C47_cubic_splines {T} {NT : Num T} nan a b orders (m : memory T) h s0 s m' last :
  mcs_new nan a b orders None = Ok s0 -> after (mcs_step nan) h s0 m None = (s, m', last) ->
  mcs_new nan a b orders (option_map snd last) = Ok s.
Proof. exact (cubics_history nan a b orders m h s0 s m' last). Qed.
Print Assumptions C47_cubic_splines.
Theorem C47_smolyak {T} {NT : Num T} solve (sg : sgrid T) (m : memory T) id0 h s0 s m' last :
  si_new solve sg (nd_arr (m id0)) = Ok s0 -> after (si_step solve) h s0 m (Some (id0, nd_arr (m id0))) = (s, m', last) ->
  exists id v s1, last = Some (id, v) /\ si_new solve sg v = Ok s1 /\
    forall pts i d dt dx, si_interpolate solve s pts i d dt dx = si_interpolate solve s1 pts i d dt dx.
Proof. exact (smolyak_history solve sg m id0 h s0 s m' last). Qed.
Print Assumptions C47_smolyak.
(** Full statement for LinearSpline and LinearSplines: the same.  Missing because false
    ([C47_linear_refuted]): histories in which the caller writes to an array that the object
    shares (C-contiguous of type float64). *)
Theorem C47_linear_partial {T} {NT : Num T} (m : memory T) multi smin smax orders h s0 s m' last :
  (forall id idx x, In (Write id idx x) h -> nd_plain (m id) = false) ->
  ls_new m multi smin smax orders None = Ok s0 -> after ls_set h s0 m None = (s, m', last) ->
  exists s1, ls_fresh multi smin smax orders (option_map snd last) = Ok s1 /\
    forall p, ls_interpolate m' s p = ls_fresh_eval s1 (option_map snd last) p.
Proof. exact (linear_history_unshared m multi smin smax orders h s0 s m' last). Qed.
Print Assumptions C47_linear_partial.
Theorem C47_linear_refuted : exists (m : memory Q) smin smax orders h s0 s m' last s1 p,
  ls_new m false smin smax orders None = Ok s0 /\ after ls_set h s0 m None = (s, m', last) /\
  ls_fresh false smin smax orders (option_map snd last) = Ok s1 /\
  exists x y, ls_interpolate m' s p = Ok (VNum x) /\ ls_fresh_eval s1 (option_map snd last) p = Ok (VNum y) /\ ~ (x == y)%Q.
Proof. exact alias_refuted. Qed.
Print Assumptions C47_linear_refuted.
(** What happens instead: the object evaluates with the present content of a shared array. *)
Theorem C47_linear_shares {T} {NT : Num T} (m : memory T) multi smin smax orders h s0 s m' last :
  ls_new m multi smin smax orders None = Ok s0 -> after ls_set h s0 m None = (s, m', last) ->
  exists s1, ls_fresh multi smin smax orders (content_used m m' last) = Ok s1 /\
    forall p, ls_interpolate m' s p = ls_fresh_eval s1 (content_used m m' last) p.
Proof. exact (linear_history m multi smin smax orders h s0 s m' last). Qed.
Print Assumptions C47_linear_shares.
Example C47_case : match cs_new [0%Q] [2%Q] [3] None with
  | Ok s0 => match after cs_step oq_hist s0 oq_mem3 None with
             | (s, m', Some (id, v)) => id = 1%nat /\ map (fun i => acell v [i]) [0; 1; 2] = [1; 2; 3]%Q /\
                 map (fun i => acell (nd_arr (m' 1%nat)) [i]) [0; 1; 2] = [9; 2; 3]%Q /\
                 (exists x, cs_call (fun _ => 77%Q) s (P1 [2%Q]) = Ok (VNum x) /\ (x == 3)%Q)
             | _ => False
             end
  | Err _ => False
  end.
Proof. exact history_case. Qed.

(** C48.  The values may have any shape with the right number of entries (for instance flat). *)
Theorem C48_cubic_spline_nodes g (V : arr R) : valid_grid (unif_grid g) -> (1 <= length g <= 4)%nat -> entries (ashape V) = entries (counts g) ->
  exists s, cs_new (lower g) (upper g) (counts g) (Some V) = Ok s /\
    forall idx j, inb (counts g) idx = true -> inb (ashape V) j = true -> position (ashape V) j = position (counts g) idx ->
      cs_gives g s (node_at (unif_grid g) idx) (acell V j).
Proof. exact (cubic_object_nodes g V). Qed.
Print Assumptions C48_cubic_spline_nodes.
(** At every point the object agrees with filter_cubic followed by eval_cubic. *)
Theorem C48_cubic_spline_everywhere g (V : arr R) : valid_grid (unif_grid g) -> (1 <= length g <= 4)%nat -> entries (ashape V) = entries (counts g) ->
  exists s W C, cs_new (lower g) (upper g) (counts g) (Some V) = Ok s /\ same_order V (counts g) W /\
    filter_cubic (unif_grid g) W None = Ok (VArr C, None) /\
    forall pt v, length pt = length g -> value_cubic None (unif_grid g) [] C pt [] v -> cs_gives g s pt v.
Proof. exact (cubic_object g V). Qed.
Print Assumptions C48_cubic_spline_everywhere.
Theorem C48_cubic_splines_nodes nan g sh ns (V : arr R) : valid_grid (unif_grid g) -> (1 <= length g <= 4)%nat ->
  ashape V = sh ++ [ns] -> 0 <= ns -> entries (ashape V) = entries (counts g ++ [ns]) ->
  exists s, mcs_new nan (lower g) (upper g) (counts g) (Some V) = Ok s /\
    forall idx k j, inb (counts g) idx = true -> 0 <= k < ns -> inb (ashape V) j = true -> position (ashape V) j = position (counts g ++ [ns]) (idx ++ [k]) ->
      mcs_gives g s ns (node_at (unif_grid g) idx) k (acell V j).
Proof. exact (cubics_object_nodes nan g sh ns V). Qed.
Print Assumptions C48_cubic_splines_nodes.
Theorem C48_cubic_splines_everywhere nan g sh ns (V : arr R) : valid_grid (unif_grid g) -> (1 <= length g <= 4)%nat ->
  ashape V = sh ++ [ns] -> 0 <= ns -> entries (ashape V) = entries (counts g ++ [ns]) ->
  exists s W C, mcs_new nan (lower g) (upper g) (counts g) (Some V) = Ok s /\ same_order V (counts g ++ [ns]) W /\
    filter_cubic (unif_grid g) W None = Ok (VArr C, None) /\
    forall pt k v, length pt = length g -> 0 <= k < ns -> value_cubic None (unif_grid g) [ns] C pt [k] v -> mcs_gives g s ns pt k v.
Proof. exact (cubics_object nan g sh ns V). Qed.
Print Assumptions C48_cubic_splines_everywhere.
(** LinearSpline ([multi = false]) and LinearSplines, every dimension, shared values or not. *)
Theorem C48_linear_nodes (m : memory R) (multi : bool) g sh ns id : let V := nd_arr (m id) in
  valid_grid (unif_grid g) -> ashape V = (if multi then sh ++ [ns] else ashape V) -> 0 <= ns ->
  entries (ashape V) = entries (counts g ++ ls_comps multi ns) ->
  exists s, ls_new m multi (lower g) (upper g) (counts g) (Some id) = Ok s /\
    forall idx suf j, inb (counts g) idx = true -> inb (ls_comps multi ns) suf = true -> inb (ashape V) j = true ->
      position (ashape V) j = position (counts g ++ ls_comps multi ns) (idx ++ suf) ->
      ls_gives m g s (ls_comps multi ns) (node_at (unif_grid g) idx) suf (acell V j).
Proof. exact (linear_object_nodes m multi g sh ns id). Qed.
Print Assumptions C48_linear_nodes.
Theorem C48_linear_everywhere (m : memory R) (multi : bool) g sh ns id : let V := nd_arr (m id) in
  valid_grid (unif_grid g) -> ashape V = (if multi then sh ++ [ns] else ashape V) -> 0 <= ns ->
  entries (ashape V) = entries (counts g ++ ls_comps multi ns) ->
  exists s W, ls_new m multi (lower g) (upper g) (counts g) (Some id) = Ok s /\ same_order V (counts g ++ ls_comps multi ns) W /\
    forall pt suf v, length pt = length g -> inb (ls_comps multi ns) suf = true ->
      value_linear None (unif_grid g) (ls_comps multi ns) W pt suf v -> ls_gives m g s (ls_comps multi ns) pt suf v.
Proof. exact (linear_object m multi g sh ns id). Qed.
Print Assumptions C48_linear_everywhere.
(** Beyond the documented four dimensions: CubicSpline accepts values and cannot evaluate,
    CubicSplines evaluates to something that does not depend on the values. *)
Theorem C48_cubic_spline_five_dims g (V : arr R) junk p values wd : (5 <= length g)%nat -> entries (ashape V) = entries (counts g) ->
  exists s, cs_new (lower g) (upper g) (counts g) (Some V) = Ok s /\ forall r, cs_interpolate junk s p values wd <> Ok r.
Proof. exact (cubic_five_dims g V junk p values wd). Qed.
Print Assumptions C48_cubic_spline_five_dims.
Theorem C48_cubic_splines_five_dims nan g ns (V V' : arr R) : (5 <= length g)%nat -> 0 <= ns ->
  ashape V = counts g ++ [ns] -> ashape V' = counts g ++ [ns] ->
  exists s s', mcs_new nan (lower g) (upper g) (counts g) (Some V) = Ok s /\ mcs_new nan (lower g) (upper g) (counts g) (Some V') = Ok s' /\
    forall junk p, mcs_call junk s p = mcs_call junk s' p.
Proof. exact (cubics_five_dims nan g ns V V'). Qed.
Print Assumptions C48_cubic_splines_five_dims.
(** Its coefficients are all NaN. *)
Theorem C48_cubic_splines_five_dims_nan nan g ns (V : arr R) : (5 <= length g)%nat -> 0 <= ns -> ashape V = counts g ++ [ns] ->
  exists s c, mcs_new nan (lower g) (upper g) (counts g) (Some V) = Ok s /\ mcs_coeffs s = Some c /\
    ashape c = map (fun i => i + 2) (counts g) ++ [ns] /\ forall idx, inb (ashape c) idx = true -> acell c idx = nan.
Proof. exact (cubics_five_nan nan g ns V). Qed.
Print Assumptions C48_cubic_splines_five_dims_nan.
Theorem C48_five_dims_refuted nan : exists (V V' : arr R) s s' idx, valid_grid (unif_grid og5) /\
  ashape V = counts og5 ++ [1] /\ ashape V' = ashape V /\
  mcs_new nan (lower og5) (upper og5) (counts og5) (Some V) = Ok s /\ mcs_new nan (lower og5) (upper og5) (counts og5) (Some V') = Ok s' /\
  inb (counts og5 ++ [1]) (idx ++ [0]) = true /\ acell V (idx ++ [0]) <> acell V' (idx ++ [0]) /\
  forall junk, mcs_call junk s (P1 (node_at (unif_grid og5) idx)) = mcs_call junk s' (P1 (node_at (unif_grid og5) idx)).
Proof. exact (cubics_five_refuted nan). Qed.
Print Assumptions C48_five_dims_refuted.
Example C48_case : exists s, cs_new (lower og) (upper og) (counts og) (Some (oflat 6)) = Ok s /\ cs_gives og s [1; 0]%R 16%R.
Proof. exact object_case. Qed.
Example C48_case_many nan : exists s, mcs_new nan (lower og) (upper og) (counts og) (Some (mkArr [6; 2] (fun idx => IZR (nth 0 idx 0 + 10 * nth 1 idx 0)))) = Ok s /\ mcs_gives og s 2 [1; 0]%R 1 14%R.
Proof. exact (objects_case nan). Qed.
Example C48_case_linear : exists s, ls_new (only (oflat 6)) false (lower og) (upper og) (counts og) (Some 0%nat) = Ok s /\ ls_gives (only (oflat 6)) og s [] [1; 0]%R [] 16%R.
Proof. exact linear_case. Qed.

(** C55 *)
Theorem C55_legacy_cubic g (V : arr R) : valid_grid (unif_grid g) -> (1 <= length g <= 4)%nat -> entries (ashape V) = entries (counts g) ->
  exists C, filter_coeffs (lower g) (upper g) (counts g) V = Ok (Some C) /\
    forall idx j, inb (counts g) idx = true -> inb (ashape V) j = true -> position (ashape V) j = position (counts g) idx ->
    let pt := node_at (unif_grid g) idx in
    point_gives (eval_cubic_spline (lower g) (upper g) (counts g) C (P1 pt)) [] (acell V j) /\
    rows_give (fun p => r <- vec_eval_cubic_spline (lower g) (upper g) (counts g) C (P2 p) None ;; Ok (fst r)) (zlen g) [] pt [] (acell V j) /\
    (forall out, (forall p, ashape (out p) = firstn 1 (ashape p)) ->
       rows_give (fun p => r <- vec_eval_cubic_spline (lower g) (upper g) (counts g) C (P2 p) (Some (out p)) ;;
                           match r with (VNone, Some o) => Ok (VArr o) | _ => Err TypeErr end) (zlen g) [] pt [] (acell V j)).
Proof. exact (legacy_one g V). Qed.
Print Assumptions C55_legacy_cubic.
Theorem C55_legacy_cubic_many nan g ns (V : arr R) : valid_grid (unif_grid g) -> (1 <= length g <= 4)%nat -> ashape V = counts g ++ [ns] -> 1 <= ns ->
  exists C, filter_mcoeffs nan (lower g) (upper g) (counts g) V = Ok C /\
    forall idx k, inb (counts g) idx = true -> 0 <= k < ns ->
    let pt := node_at (unif_grid g) idx in
    point_gives (r <- eval_cubic_splines (lower g) (upper g) (counts g) C (P1 pt) None ;; Ok (fst r)) [k] (acell V (idx ++ [k])) /\
    rows_give (fun p => r <- eval_cubic_splines (lower g) (upper g) (counts g) C (P2 p) None ;; Ok (fst r)) (zlen g) [ns] pt [k] (acell V (idx ++ [k])).
Proof. exact (legacy_many nan g ns V). Qed.
Print Assumptions C55_legacy_cubic_many.
Theorem C55_legacy_linear g (V : arr R) idx : valid_grid (unif_grid g) -> ashape V = counts g -> inb (counts g) idx = true ->
  let pt := node_at (unif_grid g) idx in
  point_gives (r <- multilinear_interpolation (lower g) (upper g) (counts g) V (P1 pt) None ;; Ok (fst r)) [] (acell V idx) /\
  rows_give (fun p => r <- multilinear_interpolation (lower g) (upper g) (counts g) V (P2 p) None ;; Ok (fst r)) (zlen g) [] pt [] (acell V idx) /\
  (forall out, (forall p, ashape (out p) = firstn 1 (ashape p)) ->
       rows_give (fun p => r <- multilinear_interpolation (lower g) (upper g) (counts g) V (P2 p) (Some (out p)) ;;
                           match r with (VNone, Some o) => Ok (VArr o) | _ => Err TypeErr end) (zlen g) [] pt [] (acell V idx)).
Proof. exact (legacy_linear g V idx). Qed.
Print Assumptions C55_legacy_linear.
(** Full statement: also with an output array.  Missing because false: such a call raises
    NameError, last clause. *)
Theorem C55_legacy_linear_many_partial g ns (V : arr R) idx k : valid_grid (unif_grid g) -> ashape V = counts g ++ [ns] -> inb (counts g) idx = true -> 0 <= k < ns ->
  let pt := node_at (unif_grid g) idx in
  point_gives (r <- vec_multilinear_interpolation (lower g) (upper g) (counts g) V (P1 pt) None ;; Ok (fst r)) [k] (acell V (idx ++ [k])) /\
  rows_give (fun p => r <- vec_multilinear_interpolation (lower g) (upper g) (counts g) V (P2 p) None ;; Ok (fst r)) (zlen g) [ns] pt [k] (acell V (idx ++ [k])) /\
  forall p o, vec_multilinear_interpolation (lower g) (upper g) (counts g) V p (Some o) = Err NameErr.
Proof. exact (legacy_linear_many g ns V idx k). Qed.
Print Assumptions C55_legacy_linear_many_partial.
Example C55_case : valid_grid (unif_grid og) /\ counts og = [2; 3] /\ entries (ashape (oflat 6)) = entries (counts og) /\
  inb (counts og) [1; 2] = true /\ position (ashape (oflat 6)) [5] = position (counts og) [1; 2].
Proof. exact (conj og_valid (conj eq_refl (conj eq_refl (conj eq_refl eq_refl)))). Qed.

(** C56 *)
Theorem C56_cubic_spline_grid g : g <> [] -> valid_grid (unif_grid g) ->
  exists P, cs_grid (lower g) (upper g) (counts g) = Ok P /\ ashape P = [entries (counts g); zlen g] /\
    forall idx, inb (counts g) idx = true -> row_of (zlen g) P (position (counts g) idx) = node_at (unif_grid g) idx.
Proof. exact (cs_grid_rows g). Qed.
Print Assumptions C56_cubic_spline_grid.
(** A spline evaluated on its own grid returns the values it was given, in order. *)
Theorem C56_cubic_spline_roundtrip g (V : arr R) junk : valid_grid (unif_grid g) -> (1 <= length g <= 4)%nat ->
  Forall (fun n => 0 <= n) (ashape V) -> entries (ashape V) = entries (counts g) ->
  exists s P o, cs_new (lower g) (upper g) (counts g) (Some V) = Ok s /\ cs_grid (lower g) (upper g) (counts g) = Ok P /\
    cs_call junk s (P2 P) = Ok (VArr o) /\ ashape o = [entries (counts g)] /\
    forall j, inb (ashape V) j = true -> acell o [position (ashape V) j] = acell V j.
Proof. exact (cubic_grid_roundtrip g V junk). Qed.
Print Assumptions C56_cubic_spline_roundtrip.
(** Full statement for LinearSpline.grid: every dimension.  Missing because false: one
    dimension ([C56_linear_spline_grid_1d_refuted]). *)
Theorem C56_linear_spline_grid_partial g : (2 <= length g)%nat -> valid_grid (unif_grid g) ->
  exists G, ml_mlinspace (lower g) (upper g) (counts g) = Ok G /\ ashape G = [zlen g; entries (counts g)] /\
    forall idx, inb (counts g) idx = true -> map (fun i => acell G [i; position (counts g) idx]) (zrange (zlen g)) = node_at (unif_grid g) idx.
Proof. exact (ml_grid_cols g). Qed.
Print Assumptions C56_linear_spline_grid_partial.
Theorem C56_linear_spline_grid_1d_refuted (t : R * R * Z) : ml_mlinspace (lower [t]) (upper [t]) (counts [t]) = Err TypeErr.
Proof. exact (ml_grid_one t). Qed.
Print Assumptions C56_linear_spline_grid_1d_refuted.
Example C56_case : og <> [] /\ valid_grid (unif_grid og) /\ (2 <= length og <= 4)%nat /\ entries (counts og) = 6.
Proof. exact grid_case. Qed.

(** C60.  The objects accept exactly the values that fill their grid. *)
Theorem C60_cubic_spline g (V : arr R) : valid_grid (unif_grid g) -> (1 <= length g <= 4)%nat ->
  ((exists s, cs_new (lower g) (upper g) (counts g) (Some V) = Ok s) <-> entries (ashape V) = entries (counts g)).
Proof. exact (cubic_accepts g V). Qed.
Print Assumptions C60_cubic_spline.
Theorem C60_cubic_splines nan g sh ns (V : arr R) : valid_grid (unif_grid g) -> (1 <= length g <= 4)%nat -> ashape V = sh ++ [ns] -> 0 <= ns ->
  ((exists s, mcs_new nan (lower g) (upper g) (counts g) (Some V) = Ok s) <-> entries (ashape V) = entries (counts g ++ [ns])).
Proof. exact (cubics_accepts nan g sh ns V). Qed.
Print Assumptions C60_cubic_splines.
Theorem C60_linear {T} {NT : Num T} (m : memory T) (multi : bool) smin smax orders sh ns id : let V := nd_arr (m id) in
  ashape V = (if multi then sh ++ [ns] else ashape V) ->
  ((exists s, ls_new m multi smin smax orders (Some id) = Ok s) <-> entries (ashape V) = entries (orders ++ ls_comps multi ns)).
Proof. exact (linear_accepts m multi smin smax orders sh ns id). Qed.
Print Assumptions C60_linear.
(** In an arithmetic with values that are not finite, CubicSpline rejects data containing one. *)
Theorem C60_nonfinite {T} {NT : Num T} a b orders (V : arr T) idx :
  inb (ashape V) idx = true -> n_finite (acell V idx) = false -> forall s, cs_new a b orders (Some V) <> Ok s.
Proof. exact (cubic_rejects_nonfinite a b orders V idx). Qed.
Print Assumptions C60_nonfinite.
Example C60_case : entries (ashape (oflat 6)) = entries (counts og) /\ entries (ashape (oflat 5)) <> entries (counts og) /\
  n_finite (PrimFloat.div PrimFloat.zero PrimFloat.zero) = false.
Proof. repeat split; try reflexivity. vm_compute. discriminate. Qed.
