(** Lemmas behind PropsGen.v, and the cases of its examples. *)
From Coq Require Import ZArith List Bool String Reals QArith Lia ZifyBool.
From Verif Require Import Base BaseFacts SplineModel Spec PySyntax PySem SpecText GenModel GenCall SpecGen GenTheorem StrSem GenText.
From Verif Require ExampleData EvalCases.
Import ListNotations.
Open Scope list_scope.
Open Scope Z_scope.

Section Any.
Context {T : Type} {NT : Num T}.
Implicit Types (h : heap T).

Lemma model_program fuel k orders xm grid C gs Cv Pv outv p out v fin h :
  eval_spline k orders xm grid C p out = Ok (v, fin) -> small_orders orders -> Forall (fun n => 1 <= n) (ashape C) ->
  Forall2 (is_dim h) gs grid -> holds_array h Cv C -> are_points h Pv p -> is_out h outv out (Cv :: Pv :: gs) ->
  (many p = true -> vectors grid C = true -> match out with Some o => 2 <= andim o | None => True end) ->
  exists w h', call_code (Some (gen_program k (many p) (vectors grid C) (fresh out) (kinds grid) xm orders)) fuel [PTup gs; Cv; Pv; outv] h = Ok (w, h') /\
    outcome h outv v fin w h'.
Proof. exact (spline_refine fuel k orders xm grid C gs Cv Pv outv p out v fin h). Qed.

Lemma text_program fuel k orders xm grid C gs Cv Pv outv p out v fin h :
  agrees k (many p) (vectors grid C) (fresh out) (kinds grid) xm orders = true ->
  eval_spline k orders xm grid C p out = Ok (v, fin) -> small_orders orders -> Forall (fun n => 1 <= n) (ashape C) ->
  Forall2 (is_dim h) gs grid -> holds_array h Cv C -> are_points h Pv p -> is_out h outv out (Cv :: Pv :: gs) ->
  (many p = true -> vectors grid C = true -> match out with Some o => 2 <= andim o | None => True end) ->
  exists w h', call_code (written (code_of k (many p) (vectors grid C) (fresh out) (kinds grid) xm orders)) fuel [PTup gs; Cv; Pv; outv] h = Ok (w, h') /\
    outcome h outv v fin w h'.
Proof. intros HA. rewrite (agrees_ok _ _ _ _ _ _ _ HA). apply model_program. Qed.

(** Many points, no [out]: a new array with the values. *)
Lemma program_values fuel k orders xm grid comps C gs Cv Pv P N n pt suf v h :
  value_at k orders xm grid comps C pt suf v -> small_orders orders -> Forall (fun n => 1 <= n) (ashape C) ->
  Forall2 (is_dim h) gs grid -> holds_array h Cv C -> holds_array h Pv P ->
  ashape P = [N; zlen grid] -> 0 <= n < N -> row_of (zlen grid) P n = pt -> inb (result_shape comps orders) suf = true ->
  exists o, call_code (Some (gen_program k true (vectors grid C) true (kinds grid) xm orders)) fuel [PTup gs; Cv; Pv; PNone] h = Ok (PArr (List.length h) [], h ++ [OF o]) /\
    ashape o = N :: result_shape comps orders /\ acell o (n :: suf) = v.
Proof.
  intros [HV _] HS HC HD HCa HP SP Hn Hr Hs. destruct (HV P N n SP Hn Hr) as (o & He & So & Vo).
  destruct (model_program fuel k orders xm grid C gs Cv Pv PNone (P2 P) None (VArr o) None h) as (w & h' & R & O); auto.
  - split; auto. unfold andim. now rewrite SP.
  - reflexivity.
  - cbn [outcome] in O. destruct O as (o' & [S1 S2] & -> & ->). exists o'. split; [exact R|]. split; [congruence|]. rewrite S2; auto.
    rewrite S1, So. cbn [inb]. rewrite Hs. lia.
Qed.
End Any.

(** ** Cases *)
Open Scope Q_scope.
Definition case_grid : list (gdim Q) := [Unif 0 1 3; Nonunif [0; 1; 3]].
Definition case_heap : heap Q := [OF (vecT [0; 1; 3]); OF ExampleData.qV; OF ExampleData.qP; OF (mkArr [2; 2; 2]%Z (fun _ => 77))].
Definition case_dims : list (val Q) := [PTup [PFlt 0; PFlt 1; PInt 3]; PArr 0 []].
Lemma case_hyps : Forall2 (is_dim case_heap) case_dims case_grid /\ holds_array case_heap (PArr 1 []) ExampleData.qV /\
  are_points case_heap (PArr 2 []) (P2 ExampleData.qP) /\
  is_out case_heap (PArr 3 []) (Some (mkArr [2; 2; 2]%Z (fun _ => 77))) [PArr 1 []; PArr 2 []; PTup [PFlt 0; PFlt 1; PInt 3]; PArr 0 []].
Proof.
  repeat split; cbn; auto.
  - constructor; [reflexivity|]. constructor; [|constructor]. split; reflexivity.
  - exists 3%nat. repeat split. repeat constructor; cbn; lia.
Qed.
(** The derivatives (0,0) and (1,0) of both components at both points, written into [out] by the program. *)
Definition case_orders : option (list (list Z)) := Some [[0; 0]; [1; 0]]%Z.
Definition case_cells (r : res (val Q * heap Q)) : option (list Q) :=
  match r with
  | Ok (PNone, h) => match nth_error h 3 with
                     | Some (OF o) => Some (map (fun idx => Qred (acell o idx)) [[0; 0; 0]; [0; 0; 1]; [1; 1; 0]; [1; 1; 1]]%Z)
                     | _ => None end
  | _ => None
  end.
Definition case_run : res (val Q * heap Q) :=
  call_code (Some (gen_program 1 true true false (kinds case_grid) XConstant case_orders)) 0
    [PTup case_dims; PArr 1 []; PArr 2 []; PArr 3 []] case_heap.
Definition case_model : option (list Q) :=
  match eval_spline 1 case_orders XConstant case_grid ExampleData.qV (P2 ExampleData.qP) (Some (mkArr [2; 2; 2]%Z (fun _ => 77))) with
  | Ok (_, Some o) => Some (map (fun idx => Qred (acell o idx)) [[0; 0; 0]; [0; 0; 1]; [1; 1; 0]; [1; 1; 1]]%Z)
  | _ => None
  end.

(** The program for a 2-d linear spline over the reals, at a node. *)
Close Scope Q_scope.
Definition caseR_heap : heap R := [OF (vecT [0; 1; 3]%R); OF ExampleData.exV; OF (mkArr [1; 2] (fun idx => match idx with [_; 0] => 1%R | _ => 3%R end))].
Lemma caseR : exists o, call_code (Some (gen_program 1 true true true [true; false] XLinear None)) 0
    [PTup [PTup [PFlt 0%R; PFlt 1%R; PInt 3]; PArr 0 []]; PArr 1 []; PArr 2 []; PNone] caseR_heap
    = Ok (PArr 3 [], caseR_heap ++ [OF o]) /\ ashape o = [1; 2] /\ acell o [0; 1] = 124%R.
Proof.
  apply (program_values 0 1 None XLinear ExampleData.exg [2] ExampleData.exV [PTup [PFlt 0%R; PFlt 1%R; PInt 3]; PArr 0 []] (PArr 1 []) (PArr 2 [])
    (mkArr [1; 2] (fun idx => match idx with [_; 0] => 1%R | _ => 3%R end)) 1 0 [1; 3]%R [1] 124%R caseR_heap); try reflexivity; try lia; try exact I.
  - exact EvalCases.ex_C01.
  - repeat constructor; lia.
  - constructor; [reflexivity|]. constructor; [|constructor]. split; reflexivity.
  - split; reflexivity.
  - split; reflexivity.
Qed.
