(** Properties C64 and C65: the programs written by codegen.py. *)
From Coq Require Import ZArith List Bool String Reals QArith Lia.
From Verif Require Import Base BaseFacts SplineModel Spec PySyntax PySem SpecText GenModel GenCall SpecGen StrSem GenText GenProps.
From Verif Require ExampleData.
Import ListNotations.
Open Scope list_scope.
Open Scope Z_scope.

(** C64.  For any number of dimensions, any degree, derivative orders, extrapolation mode and kinds of
    dimensions, one point or many, with [out] or without: whenever the model returns, the generated
    program returns the same value, leaves the same [out] and changes no other array. *)
Theorem C64_generated_program_is_model (T : Type) (NT : Num T) fuel k orders xm grid C gs Cv Pv outv p out v fin (h : heap T) :
  eval_spline k orders xm grid C p out = Ok (v, fin) -> small_orders orders -> Forall (fun n => 1 <= n) (ashape C) ->
  Forall2 (is_dim h) gs grid -> holds_array h Cv C -> are_points h Pv p -> is_out h outv out (Cv :: Pv :: gs) ->
  (many p = true -> vectors grid C = true -> match out with Some o => 2 <= andim o | None => True end) ->
  exists w h', call_code (Some (gen_program k (many p) (vectors grid C) (fresh out) (kinds grid) xm orders)) fuel [PTup gs; Cv; Pv; outv] h = Ok (w, h') /\
    outcome h outv v fin w h'.
Proof. exact (model_program fuel k orders xm grid C gs Cv Pv outv p out v fin h). Qed.
Print Assumptions C64_generated_program_is_model.
(** The same of the text written by the text of codegen.py, for the options for which the text and the
    syntax tree have been compared. *)
Theorem C64_written_text_is_model (T : Type) (NT : Num T) fuel k orders xm grid C gs Cv Pv outv p out v fin (h : heap T) :
  agrees k (many p) (vectors grid C) (fresh out) (kinds grid) xm orders = true ->
  eval_spline k orders xm grid C p out = Ok (v, fin) -> small_orders orders -> Forall (fun n => 1 <= n) (ashape C) ->
  Forall2 (is_dim h) gs grid -> holds_array h Cv C -> are_points h Pv p -> is_out h outv out (Cv :: Pv :: gs) ->
  (many p = true -> vectors grid C = true -> match out with Some o => 2 <= andim o | None => True end) ->
  exists w h', call_code (written (code_of k (many p) (vectors grid C) (fresh out) (kinds grid) xm orders)) fuel [PTup gs; Cv; Pv; outv] h = Ok (w, h') /\
    outcome h outv v fin w h'.
Proof. exact (text_program fuel k orders xm grid C gs Cv Pv outv p out v fin h). Qed.
Print Assumptions C64_written_text_is_model.
Example C64_case : Forall2 (is_dim case_heap) case_dims case_grid /\ holds_array case_heap (PArr 1 []) ExampleData.qV /\
  are_points case_heap (PArr 2 []) (P2 ExampleData.qP) /\
  is_out case_heap (PArr 3 []) (Some (mkArr [2; 2; 2] (fun _ => 77%Q))) [PArr 1 []; PArr 2 []; PTup [PFlt 0%Q; PFlt 1%Q; PInt 3]; PArr 0 []].
Proof. exact case_hyps. Qed.
Example C64_computed : case_model = Some [10 # 3; 1 # 2; 322 # 3; 1 # 2]%Q /\ case_cells case_run = case_model.
Proof. vm_compute. auto. Qed.
Example C64_texts : agrees 1 false true true [true] XLinear None && agrees 1 false true true [false] XLinear None && agrees 1 true false true [true; false] XConstant (Some [[1; 0]; [0; 2]]) &&
  agrees 3 true true false [true] XNearest (Some [[0]; [1]]) && agrees 3 true false true [true; true] XLinear None = true.
Proof. now rewrite text_point1, text_linear1, text_linear2, text_cubic1, text_cubic2. Qed.

(** C65.  What C01-C22 say of the values, they say of the programs: where the value at a point is [v],
    the program called with an N x d array whose row [n] is that point returns a new array with [v] in row [n]. *)
Theorem C65_program_values (T : Type) (NT : Num T) fuel k orders xm grid comps C gs Cv Pv P N n pt suf v (h : heap T) :
  value_at k orders xm grid comps C pt suf v -> small_orders orders -> Forall (fun n => 1 <= n) (ashape C) ->
  Forall2 (is_dim h) gs grid -> holds_array h Cv C -> holds_array h Pv P ->
  ashape P = [N; zlen grid] -> 0 <= n < N -> row_of (zlen grid) P n = pt -> inb (result_shape comps orders) suf = true ->
  exists o, call_code (Some (gen_program k true (vectors grid C) true (kinds grid) xm orders)) fuel [PTup gs; Cv; Pv; PNone] h = Ok (PArr (List.length h) [], h ++ [OF o]) /\
    ashape o = N :: result_shape comps orders /\ acell o (n :: suf) = v.
Proof. exact (program_values fuel k orders xm grid comps C gs Cv Pv P N n pt suf v h). Qed.
Print Assumptions C65_program_values.
Example C65_case : exists o, call_code (Some (gen_program 1 true true true [true; false] XLinear None)) 0
    [PTup [PTup [PFlt 0%R; PFlt 1%R; PInt 3]; PArr 0 []]; PArr 1 []; PArr 2 []; PNone] caseR_heap
    = Ok (PArr 3 [], caseR_heap ++ [OF o]) /\ ashape o = [1; 2] /\ acell o [0; 1] = 124%R.
Proof. exact caseR. Qed.
