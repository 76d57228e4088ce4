(** C71: [filter_data] of filter_cubic.py, as it is written.  [run_text] parses the embedded text and
    interprets it (PySyntax.v, PySem.v). *)
From Coq Require Import ZArith List Bool String Reals QArith PrimFloat.
From Verif Require Import Base SplineModel PrefilterModel Spec SpecBasis SpecGrad GradCases PySyntax PySem SpecText SpecPref SpecFilt SrcPrefilterCubic SrcFilterCubic SrcEvalCubicNumba PrefCases FiltTop FiltR FiltCases.
Import ListNotations.
Open Scope list_scope.
Open Scope Z_scope.

(** In any arithmetic in which 6 and 3 are not 0: [filter_data(dinv, data)] returns a new array, that of the
    model, or raises what the model raises.  In 1 to 4 dimensions the array has one axis for each dimension,
    none of them empty. *)
Theorem C71_filter_data_text (T : Type) (NT : Num T) n (h : heap T) kv kd dinvs D :
  n_is0 (n_ofZ (T := T) 6) = false -> n_is0 (n_ofZ (T := T) 3) = false ->
  nth_error h kv = Some (OF (vecT dinvs)) -> nth_error h kd = Some (OF D) ->
  ((1 <= List.length dinvs <= 4)%nat -> Forall (fun m => 1 <= m) (ashape D) /\ List.length (ashape D) = List.length dinvs) ->
  returns_opt h (filter_data dinvs D) (run_text filter_cubic_py (S (S (S (S n)))) "filter_data" [PArr kv []; PArr kd []] [] h).
Proof. intros H6 H3. exact (text_filter_data H6 H3 n h kv kd dinvs D). Qed.
Print Assumptions C71_filter_data_text.
(** In no dimension, and in five or more, it returns None and makes no array. *)
Theorem C71_no_result_text (T : Type) (NT : Num T) n (h : heap T) kv kd dinvs D :
  n_is0 (n_ofZ (T := T) 6) = false -> n_is0 (n_ofZ (T := T) 3) = false ->
  nth_error h kv = Some (OF (vecT dinvs)) -> nth_error h kd = Some (OF D) ->
  (List.length dinvs = 0 \/ 5 <= List.length dinvs)%nat ->
  run_text filter_cubic_py (S (S (S (S n)))) "filter_data" [PArr kv []; PArr kd []] [] h = Ok (PNone, h).
Proof. intros H6 H3. exact (text_no_result H6 H3 n h kv kd dinvs D). Qed.
Print Assumptions C71_no_result_text.
(** Over the reals: for any steps other than 0, the array is the one returned by the text of prefilter_cubic.py. *)
Theorem C71_same_as_prefilter g V dinvs n m : valid_grid (unif_grid g) -> (1 <= List.length g <= 4)%nat -> ashape V = counts g ->
  List.length dinvs = List.length g -> List.Forall (fun x => x <> 0%R) dinvs -> (7 <= n)%nat -> (4 <= m)%nat ->
  exists C C' j j',
    run_text prefilter_cubic_py n "prefilter" [PTup (tuples g); PArr 0 []] [] [OF V] = Ok (PArr 1 [], OF V :: OF C :: j) /\
    run_text filter_cubic_py m "filter_data" [PArr 0 []; PArr 1 []] [] [OF (vecT dinvs); OF V] = Ok (PArr 2 [], OF (vecT dinvs) :: OF V :: OF C' :: j') /\
    aeq C C'.
Proof. exact (text_same g V dinvs n m). Qed.
Print Assumptions C71_same_as_prefilter.
(** So it interpolates: [filter_data], then the text of eval_cubic_numba.py at a node, gives the data of that node. *)
Theorem C71_texts_interpolate g V dinvs m p : valid_grid (unif_grid g) -> (1 <= List.length g <= 4)%nat -> ashape V = counts g ->
  List.length dinvs = List.length g -> List.Forall (fun x => x <> 0%R) dinvs -> (4 <= m)%nat ->
  exists C j,
    run_text filter_cubic_py m "filter_data" [PArr 0 []; PArr 1 []] [] [OF (vecT dinvs); OF V] = Ok (PArr 2 [], OF (vecT dinvs) :: OF V :: OF C :: j) /\
    forall idx, inb (counts g) idx = true ->
      let h := [OF (vecT (lower g)); OF (vecT (upper g)); OI (vecZ (counts g)); OF C; OF (vecT (node_at (unif_grid g) idx))] in
      run_text eval_cubic_numba_py (S p) (dim_name "eval_cubic_spline_" (List.length g)) (arrays 5) [] h = Ok (PFlt (acell V idx), h).
Proof. exact (text_old_interpolates g V dinvs m p). Qed.
Print Assumptions C71_texts_interpolate.
Example C71_case_floats : n_is0 (n_ofZ (T := float) 6) = false /\ n_is0 (n_ofZ (T := float) 3) = false.
Proof. split; reflexivity. Qed.
Example C71_case_steps : valid_grid (unif_grid g2) /\ (1 <= List.length g2 <= 4)%nat /\ ashape (fD (T := R)) = counts g2 /\
  List.length [1; -2]%R = List.length g2 /\ List.Forall (fun x => x <> 0%R) [1; -2]%R.
Proof. exact case_steps. Qed.
(** Computed: [filter_data] of 3 x 4 data, with fractions and with floats; the value 22 at the node (1, 2). *)
Example C71_case_computed : match run_text (T := Q) filter_cubic_py 4 "filter_data" [PArr 0 []; PArr 1 []] [] fh with
  | Ok (PArr 2 [], h) => match nth_error h 2 with Some (OF C) => map Qred (cells C fspots) = [-19 # 2; 10; 70; 0]%Q | _ => False end
  | _ => False end.
Proof. exact case_filt_Q. Qed.
Example C71_case_float : match run_text (T := float) filter_cubic_py 4 "filter_data" [PArr 0 []; PArr 1 []] [] fh, filter_data (T := float) [5; 7]%float fD with
  | Ok (PArr 2 [], h), Ok (Some C) => match nth_error h 2 with Some (OF C') => cells C' fspots = cells C fspots | _ => False end
  | _, _ => False end.
Proof. exact case_filt_float. Qed.
Example C71_case_node : match old_filtered with Some C => node_value C | None => None end = Some 22%Q.
Proof. exact case_old_texts. Qed.
Example C71_case_five : run_text (T := float) filter_cubic_py 4 "filter_data" [PArr 0 []; PArr 1 []] [] [OF (vecT [1; 1; 1; 1; 1]%float); OF (azeros [2; 2; 2; 2; 2])]
  = Ok (PNone, [OF (vecT [1; 1; 1; 1; 1]%float); OF (azeros [2; 2; 2; 2; 2])]).
Proof. exact case_five. Qed.
