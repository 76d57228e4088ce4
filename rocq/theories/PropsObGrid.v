(** C86: the property [grid] of the text of splines.py. *)
From Coq Require Import ZArith List Bool String Lia Reals Lra QArith.
From Verif Require Import Base SplineModel PrefilterModel ArrayModel CartesianModel GradModel ObjectModel SpecObject Spec SpecBasis SpecGrad PySyntax ObSem SpecObText SpecObGrid ObText ObTextE ObTextH ObTextF ObTextJ ObTextK ObTextM ArrayFacts ObjectR CartesianProps ObjectGrid PropsObject.
Import ListNotations.
Open Scope Z_scope.
Open Scope string_scope.
Local Opaque run cubic_program.

(** Any arithmetic.  A program makes a CubicSpline and calls [set_values], writes to its arrays, calls the object, reads [grid] and writes to the
    array that [grid] gave, in any order.  Its own arrays and the results of calls are as without the readings and writings of the grid.  [grid]
    gives the array of the first reading (or a new one), outside the arrays of the program, with the content of [mlinspace] changed by
    the writes of the program only. *)
Theorem C86_cubic_spline {T} {NT : Num T} junk a b n (h : heap T) hist : dims a b n -> Forall (deed_ok (h_next h)) (deeds hist) ->
  let w0 := fst (make junk cubic_program "CubicSpline" a b n None h) in
  let r := ghistory junk cubic_program "CubicSpline" hist w0 None None in
  let w := fst (fst r) in
  let r0 := history junk cubic_program "CubicSpline" (deeds hist) w0 None in
  snd (fst r) = snd r0 /\
  (forall i, (i < h_next h)%nat -> h_mem (fst w) i = writes (deeds hist) (h_mem h) i) /\
  (forall p, rows p ->
    same (seen (run junk cubic_program "CubicSpline" "__call__" [pval p] [] w)) (seen (run junk cubic_program "CubicSpline" "__call__" [pval p] [] (fst r0))) /\
    same (seen (run junk cubic_program "CubicSpline" "interpolate" [pval p; ONone; OB false] [] w)) (seen (run junk cubic_program "CubicSpline" "interpolate" [pval p; ONone; OB false] [] (fst r0)))) /\
  let again := run junk cubic_program "CubicSpline" "grid" [] [] w in
  match mlinspace a b n OrderC with
  | Err e => again = (w, Err e)
  | Ok P => exists l, snd again = Ok (ORef l []) /\ (h_next h <= l)%nat /\
      match snd r with Some l' => l' = l /\ fst again = w | None => True end /\
      nd_arr (h_mem (fst (fst again)) l) = match grid_after hist P None with Some A => A | None => P end
  end.
Proof. exact (gtext junk a b n h hist). Qed.
Print Assumptions C86_cubic_spline.
(** The same for CubicSplines; results with gradients. *)
Theorem C86_cubic_splines {T} {NT : Num T} junk a b n (h : heap T) hist : dims a b n -> Forall (deed_ok (h_next h)) (deeds hist) ->
  let w0 := fst (make junk cubic_program "CubicSplines" a b n None h) in
  let r := ghistory junk cubic_program "CubicSplines" hist w0 None None in
  let w := fst (fst r) in
  let r0 := history junk cubic_program "CubicSplines" (deeds hist) w0 None in
  snd (fst r) = snd r0 /\
  (forall i, (i < h_next h)%nat -> h_mem (fst w) i = writes (deeds hist) (h_mem h) i) /\
  (forall p, rows p ->
    same (seen (run junk cubic_program "CubicSplines" "__call__" [pval p] [] w)) (seen (run junk cubic_program "CubicSplines" "__call__" [pval p] [] (fst r0))) /\
    same (seen2 (run junk cubic_program "CubicSplines" "interpolate" [pval p; OB true] [] w)) (seen2 (run junk cubic_program "CubicSplines" "interpolate" [pval p; OB true] [] (fst r0)))) /\
  let again := run junk cubic_program "CubicSplines" "grid" [] [] w in
  match mlinspace a b n OrderC with
  | Err e => again = (w, Err e)
  | Ok P => exists l, snd again = Ok (ORef l []) /\ (h_next h <= l)%nat /\
      match snd r with Some l' => l' = l /\ fst again = w | None => True end /\
      nd_arr (h_mem (fst (fst again)) l) = match grid_after hist P None with Some A => A | None => P end
  end.
Proof. exact (mgtext junk a b n h hist). Qed.
Print Assumptions C86_cubic_splines.

(** Real arithmetic: the rows of the grid are the nodes, in the order of the values, and the spline evaluated there returns the values. *)
Theorem C86_roundtrip junk g (h : heap R) id : let V := nd_arr (h_mem h id) in (id < h_next h)%nat ->
  valid_grid (unif_grid g) -> (1 <= List.length g <= 4)%nat -> Forall (fun n => 0 <= n) (ashape V) -> entries (ashape V) = entries (counts g) ->
  let r := make junk cubic_program "CubicSpline" (lower g) (upper g) (counts g) (Some id) h in
  let q := run junk cubic_program "CubicSpline" "grid" [] [] (fst r) in
  exists l P o, snd q = Ok (ORef l []) /\ nd_arr (h_mem (fst (fst q)) l) = P /\
    ashape P = [entries (counts g); zlen g] /\
    (forall idx, inb (counts g) idx = true -> row_of (zlen g) P (position (counts g) idx) = node_at (unif_grid g) idx) /\
    seen (run junk cubic_program "CubicSpline" "__call__" [OMat P] [] (fst q)) = Ok (VArr o) /\
    ashape o = [entries (counts g)] /\ forall j, inb (ashape V) j = true -> acell o [position (ashape V) j] = acell V j.
Proof.
  intros V Hi Hg L Fs E r. destruct (C56_cubic_spline_roundtrip g V junk Hg L Fs E) as (s & P & o & Es & EP & Eo & So & Ho).
  assert (Hne : g <> []) by (intros ->; cbn in L; lia).
  destruct (C56_cubic_spline_grid g Hne Hg) as (P' & EP' & SP & HP). rewrite EP in EP'. injection EP' as <-.
  pose proof (cs_make_ok junk (h_next h) (lower g) (upper g) (counts g) (Some id) h (dims_grid g L) (le_n _) Hi) as Hm. cbv zeta in Hm. cbn [option_map] in Hm.
  fold V in Hm. rewrite Es in Hm. fold r in Hm. destruct Hm as [_ Rl]. clearbody r.
  assert (Sg : cs_a s = lower g /\ cs_b s = upper g /\ cs_orders s = counts g) by exact (new_grid _ _ _ _ _ Es).
  destruct Sg as (Sa & Sb & Sn).
  pose proof (grel_read junk _ _ s None None (fst r) (grel_new _ _ _ _ Rl)) as Q. cbv zeta in Q |- *. rewrite Sa, Sb, Sn, EP in Q. destruct Q as (Q1 & Q2 & Q3).
  exists (h_next (fst (fst r))), P, o. split; [exact Q1|]. split; [exact Q2|]. split; [exact SP|]. split; [exact HP|].
  split; [|split; [exact So|exact Ho]].
  assert (Hr : rows (P2 P)) by (exists (entries (counts g)), (zlen g); exact SP).
  exact (same_ok _ _ _ (proj1 (grel_call junk _ _ s _ _ _ (P2 P) Q3 Hr)) Eo).
Qed.
Print Assumptions C86_roundtrip.

(** CubicSplines: row [position idx] of the result at the grid has the values at the node [idx]. *)
Theorem C86_roundtrip_many junk g sh ns (h : heap R) id : let V := nd_arr (h_mem h id) in (id < h_next h)%nat ->
  valid_grid (unif_grid g) -> (1 <= List.length g <= 4)%nat -> ashape V = (sh ++ [ns])%list -> 0 <= ns -> entries (ashape V) = entries (counts g ++ [ns])%list ->
  let r := make junk cubic_program "CubicSplines" (lower g) (upper g) (counts g) (Some id) h in
  let q := run junk cubic_program "CubicSplines" "grid" [] [] (fst r) in
  exists l P, snd q = Ok (ORef l []) /\ nd_arr (h_mem (fst (fst q)) l) = P /\
    ashape P = [entries (counts g); zlen g] /\
    (forall idx, inb (counts g) idx = true -> row_of (zlen g) P (position (counts g) idx) = node_at (unif_grid g) idx) /\
    forall idx k j, inb (counts g) idx = true -> 0 <= k < ns -> inb (ashape V) j = true -> position (ashape V) j = position (counts g ++ [ns])%list (idx ++ [k])%list ->
      exists o, seen (run junk cubic_program "CubicSplines" "__call__" [OMat P] [] (fst q)) = Ok (VArr o) /\
        ashape o = [entries (counts g); ns] /\ acell o [position (counts g) idx; k] = acell V j.
Proof.
  intros V Hi Hg L Es0 Hn E r. destruct (C48_cubic_splines_nodes 0%R g sh ns V Hg L Es0 Hn E) as (s & Es & G).
  assert (Hne : g <> []) by (intros ->; cbn in L; lia).
  destruct (C56_cubic_spline_grid g Hne Hg) as (P & EP & SP & HP).
  pose proof (mcs_make_ok junk 0%R (h_next h) (lower g) (upper g) (counts g) (Some id) h (dims_grid g L) (le_n _) Hi) as Hm. cbv zeta in Hm. cbn [option_map] in Hm.
  fold V in Hm. rewrite Es in Hm. fold r in Hm. destruct Hm as [_ Rl]. clearbody r.
  destruct (mnew_grid _ _ _ _ _ _ Es) as (Sa & Sb & Sn).
  pose proof (mgrel_read junk _ _ s None None (fst r) (mgrel_new _ _ _ _ Rl)) as Q. cbv zeta in Q |- *. rewrite Sa, Sb, Sn, EP in Q. destruct Q as (Q1 & Q2 & Q3).
  exists (h_next (fst (fst r))), P. split; [exact Q1|]. split; [exact Q2|]. split; [exact SP|]. split; [exact HP|].
  intros idx k j Hx Hk Hj Hp. destruct (G idx k j Hx Hk Hj Hp junk) as (_ & G2 & _).
  assert (Hr : 0 <= position (counts g) idx < entries (counts g)) by (rewrite position_ravel by auto; now apply ravel_range).
  destruct (G2 P _ (position (counts g) idx) SP Hr (HP idx Hx)) as (o & Eo & So & Vo).
  exists o. split; [|split; [exact So|exact Vo]].
  assert (Hw : rows (P2 P)) by (exists (entries (counts g)), (zlen g); exact SP).
  exact (same_ok _ _ _ (proj1 (mgrel_call junk _ _ s _ _ _ (P2 P) Q3 Hw)) Eo).
Qed.
Print Assumptions C86_roundtrip_many.

(** [grid] does not always give the grid: the array is kept, and given to the program, which may have written to it.  Nodes 0, 1, 2; the
    program writes 9 to the first. *)
Local Transparent run cubic_program.
Definition c86_heap : heap Q := mkHeap 1 (fun _ => mkNd true (mkArr [3] (fun idx => inject_Z (nth 0 idx 0)))).
Definition c86_hist : list (gdeed Q) := [GDo (DSet 0); GRead; GWrite [0; 0] 9%Q; GDo (DCall (P1 [1%Q]))].
Definition c86_state : state Q := fst (fst (ghistory (fun _ => 77%Q) cubic_program "CubicSpline" c86_hist
  (fst (make (fun _ => 77%Q) cubic_program "CubicSpline" [0%Q] [2%Q] [3] None c86_heap)) None None)).
Example C86_hypotheses : dims [0%Q] [2%Q] [3] /\ Forall (deed_ok (h_next c86_heap)) (deeds c86_hist).
Proof. split; [cbn; repeat split; auto with arith|]. repeat constructor. Qed.
Definition c86_read (hist : list (gdeed Q)) : res (pyval Q) :=
  seen (run (fun _ => 77%Q) cubic_program "CubicSpline" "grid" [] [] (fst (fst (ghistory (fun _ => 77%Q) cubic_program "CubicSpline" hist
    (fst (make (fun _ => 77%Q) cubic_program "CubicSpline" [0%Q] [2%Q] [3] None c86_heap)) None None)))).
Theorem C86_grid_constant_refuted : ~ (forall hist : list (gdeed Q), Forall (deed_ok (h_next c86_heap)) (deeds hist) ->
  forall P, mlinspace [0%Q] [2%Q] [3] OrderC = Ok P -> exists A, c86_read hist = Ok (VArr A) /\ (acell A [0%Z; 0%Z] == acell P [0%Z; 0%Z])%Q).
Proof.
  intros H. specialize (H c86_hist (proj2 C86_hypotheses)).
  assert (E : match mlinspace [0%Q] [2%Q] [3] OrderC, c86_read c86_hist with
              | Ok P, Ok (VArr A) => Qeq_bool (acell A [0%Z; 0%Z]) (acell P [0%Z; 0%Z]) = false | _, _ => False end) by (vm_compute; reflexivity).
  revert H E. generalize (c86_read c86_hist). generalize (mlinspace [0%Q] [2%Q] [3] OrderC). intros [P|] r H E; [|exact E].
  destruct (H P eq_refl) as (A & -> & EQ). apply Qeq_bool_iff in EQ. rewrite EQ in E. discriminate.
Qed.
Print Assumptions C86_grid_constant_refuted.
(** Calls are not affected: 2 at the last node. *)
Example C86_case : match seen (run (fun _ => 77%Q) cubic_program "CubicSpline" "__call__" [OVec [2%Q]] [] c86_state) with Ok (VNum x) => (x == 2)%Q | _ => False end.
Proof. vm_compute. reflexivity. Qed.
Example C86_roundtrip_hypotheses : let g := [(0%R, 2%R, 3)] in let h := mkHeap 1 (fun _ => mkNd true (mkArr [3] (fun idx => IZR (nth 0 idx 0)))) in
  let V := nd_arr (h_mem h 0%nat) in
  (0 < h_next h)%nat /\ valid_grid (unif_grid g) /\ (1 <= List.length g <= 4)%nat /\ Forall (fun n => 0 <= n) (ashape V) /\ entries (ashape V) = entries (counts g).
Proof.
  split; [cbn; lia|]. split; [constructor; [|constructor]; split; cbn; [lia|lra]|]. split; [cbn; lia|]. split; [|reflexivity].
  constructor; [lia|constructor].
Qed.
Example C86_roundtrip_many_hypotheses : let g := [(0%R, 2%R, 3)] in let h := mkHeap 1 (fun _ => mkNd true (mkArr [3; 2] (fun idx => IZR (nth 0 idx 0)))) in
  let V := nd_arr (h_mem h 0%nat) in
  (0 < h_next h)%nat /\ valid_grid (unif_grid g) /\ (1 <= List.length g <= 4)%nat /\ ashape V = ([3] ++ [2])%list /\ 0 <= 2 /\ entries (ashape V) = entries (counts g ++ [2])%list /\
  inb (counts g) [1] = true /\ inb (ashape V) [1; 0] = true /\ position (ashape V) [1; 0] = position (counts g ++ [2])%list ([1] ++ [0])%list.
Proof.
  split; [cbn; lia|]. split; [constructor; [|constructor]; split; cbn; [lia|lra]|]. split; [cbn; lia|]. split; [reflexivity|]. split; [lia|]. repeat split; reflexivity.
Qed.
(** The same history for CubicSplines: the grid of the program's writing, values not affected. *)
Example C86_case_many :
  let h := mkHeap 1 (fun _ => mkNd true (mkArr [3; 1] (fun idx => inject_Z (nth 0 idx 0)))) in
  let w := fst (fst (ghistory (fun _ => 77%Q) cubic_program "CubicSplines" ([GRead] ++ c86_hist)%list
             (fst (make (fun _ => 77%Q) cubic_program "CubicSplines" [0%Q] [2%Q] [3] None h)) None None)) in
  match seen (run (fun _ => 77%Q) cubic_program "CubicSplines" "__call__" [OVec [2%Q]] [] w), seen (run (fun _ => 77%Q) cubic_program "CubicSplines" "grid" [] [] w) with
  | Ok (VArr o), Ok (VArr A) => (acell o [0%Z] == 2)%Q /\ (acell A [0%Z; 0%Z] == 9)%Q /\ (acell A [2%Z; 0%Z] == 2)%Q | _, _ => False end.
Proof. vm_compute. repeat split; reflexivity. Qed.
