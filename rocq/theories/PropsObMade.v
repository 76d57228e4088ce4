(** C87: an object made with values, and one made without them whose [set_values] is called. *)
From Coq Require Import ZArith List Bool String Lia QArith.
From Verif Require Import Base SplineModel PrefilterModel ArrayModel CartesianModel GradModel ObjectModel SpecObject PySyntax ObSem SpecObText SpecObGrid ObText ObTextA ObTextB ObTextC ObTextD ObTextE ObTextF ObTextG ObTextH ObTextI ObTextJ ObTextK ObTextL ObTextM.
Import ListNotations.
Open Scope Z_scope.
Open Scope string_scope.
Local Opaque run cubic_program linear_program.

(** CubicSpline, LinearSpline and LinearSplines: the same object, heap and outcome. *)
Theorem C87_cubic_spline {T} {NT : Num T} junk a b n (h : heap T) id : dims a b n ->
  make junk cubic_program "CubicSpline" a b n (Some id) h =
  run junk cubic_program "CubicSpline" "set_values" [ORef id []] [] (fst (make junk cubic_program "CubicSpline" a b n None h)).
Proof.
  intros D. unfold make. pose proof (cs_new_tree junk h a b n None D) as Q0. pose proof (cs_new_tree junk h a b n (Some id) D) as Q1. revert Q0 Q1.
  generalize (run junk cubic_program "CubicSpline" "__init__" [OL (map OF a); OL (map OF b); OL (map OI n); vref (Some id)] [] (h, [])).
  generalize (run junk cubic_program "CubicSpline" "__init__" [OL (map OF a); OL (map OF b); OL (map OI n); vref None] [] (h, [])).
  intros r0 r1 -> ->. cbn [fst]. exact (eq_sym (cs_set_tree junk h a b n ONone [] id D (or_introl eq_refl))).
Qed.
Print Assumptions C87_cubic_spline.
Theorem C87_linear {T} {NT : Num T} junk multi a b n (h : heap T) id : dims a b n ->
  make junk linear_program (lclass multi) a b n (Some id) h =
  run junk linear_program (lclass multi) "set_values" [ORef id []] [] (fst (make junk linear_program (lclass multi) a b n None h)).
Proof.
  intros D. unfold make. pose proof (ls_new_tree junk multi h a b n None D) as Q0. pose proof (ls_new_tree junk multi h a b n (Some id) D) as Q1. revert Q0 Q1.
  generalize (run junk linear_program (lclass multi) "__init__" [OL (map OF a); OL (map OF b); OL (map OI n); vref (Some id)] [] (h, [])).
  generalize (run junk linear_program (lclass multi) "__init__" [OL (map OF a); OL (map OF b); OL (map OI n); vref None] [] (h, [])).
  intros r0 r1 -> ->. cbn [fst]. exact (eq_sym (ls_set_tree junk multi h a b n None id D)).
Qed.
Print Assumptions C87_linear.
(** CubicSplines: both raise, or no call and no reading of the grid after any further history tells them apart. *)
Theorem C87_cubic_splines {T} {NT : Num T} junk a b n (h : heap T) id : dims a b n -> (id < h_next h)%nat ->
  let w1 := make junk cubic_program "CubicSplines" a b n (Some id) h in
  let w2 := run junk cubic_program "CubicSplines" "set_values" [ORef id []] [] (fst (make junk cubic_program "CubicSplines" a b n None h)) in
  (exists e1 e2, snd w1 = Err e1 /\ snd w2 = Err e2) \/
  (snd w1 = Ok ONone /\ snd w2 = Ok ONone /\ forall hist last, Forall (deed_ok (h_next h)) (deeds hist) ->
    let r1 := ghistory junk cubic_program "CubicSplines" hist (fst w1) last None in
    let r2 := ghistory junk cubic_program "CubicSplines" hist (fst w2) last None in
    let v1 := fst (fst r1) in
    let v2 := fst (fst r2) in
    snd (fst r1) = snd (fst r2) /\ (forall i, (i < h_next h)%nat -> h_mem (fst v1) i = h_mem (fst v2) i) /\
    (forall p, rows p ->
      same (seen (run junk cubic_program "CubicSplines" "__call__" [pval p] [] v1)) (seen (run junk cubic_program "CubicSplines" "__call__" [pval p] [] v2)) /\
      same (seen2 (run junk cubic_program "CubicSplines" "interpolate" [pval p; OB true] [] v1)) (seen2 (run junk cubic_program "CubicSplines" "interpolate" [pval p; OB true] [] v2))) /\
    seen (run junk cubic_program "CubicSplines" "grid" [] [] v1) = seen (run junk cubic_program "CubicSplines" "grid" [] [] v2)).
Proof.
  intros D Hi w1 w2.
  pose proof (mcs_make_ok junk (n_ofZ 0) (h_next h) a b n (Some id) h D (le_n _) Hi) as H1. cbv zeta in H1. fold w1 in H1. cbn [option_map] in H1.
  pose proof (mcs_make_ok junk (n_ofZ 0) (h_next h) a b n None h D (le_n _) I) as H0. cbv zeta in H0. cbn [option_map] in H0.
  pose proof (mnew_grid (n_ofZ 0) a b n (Some (nd_arr (h_mem h id)))) as Hs.
  unfold mcs_new in H0, H1, Hs.
  assert (Zb : zlen b = zlen a) by (unfold zlen; destruct D as (_ & -> & _); reflexivity).
  assert (Zn : zlen n = zlen a) by (unfold zlen; destruct D as (_ & _ & ->); reflexivity).
  rewrite Zb, Zn, Z.eqb_refl in H0, H1, Hs. cbn [negb orb] in H0, H1, Hs. destruct H0 as [_ R0].
  destruct (mcs_set_ok junk (n_ofZ 0) _ _ _ _ id R0 Hi) as [R2 O2]. fold w2 in R2, O2. clearbody w1 w2. unfold mcs_step in R2, O2.
  destruct (mcs_set _ _ _) as [s [u|e]]; cbn [bind fst snd same_outcome] in *.
  - destruct H1 as [E1 R1]. right. split; [exact E1|]. split; [exact O2|]. intros hist last F. specialize (Hs s eq_refl).
    pose proof (mgboth junk (n_ofZ 0) _ _ s a b n _ _ hist last R1 R1 Hs F) as Q1.
    pose proof (mgboth junk (n_ofZ 0) _ _ s a b n _ _ hist last R2 R1 Hs F) as Q2.
    cbv zeta in Q1, Q2 |- *. destruct Q1 as (L1 & M1 & C1 & G1). destruct Q2 as (L2 & M2 & C2 & G2).
    split; [rewrite L1, L2; reflexivity|]. split; [intros i Hj; rewrite (M1 i Hj), (M2 i Hj); reflexivity|]. split.
    + intros p Hp. destruct (C1 p Hp) as [A1 B1], (C2 p Hp) as [A2 B2].
      split; [exact (same_trans _ _ _ A1 (same_sym _ _ A2))|exact (same_trans _ _ _ B1 (same_sym _ _ B2))].
    + revert G1 G2.
      generalize (fst (fst (ghistory junk cubic_program "CubicSplines" hist (fst w1) last None))). intros v1.
      generalize (fst (fst (ghistory junk cubic_program "CubicSplines" hist (fst w2) last None))). intros v2.
      generalize (run junk cubic_program "CubicSplines" "grid" [] [] v1). intros q1.
      generalize (run junk cubic_program "CubicSplines" "grid" [] [] v2). intros q2.
      destruct (mlinspace a b n OrderC) as [P|e]; [|intros -> ->; reflexivity].
      intros (l1 & A1 & _ & _ & B1) (l2 & A2 & _ & _ & B2). unfold seen. rewrite A1, A2. cbn. rewrite B1, B2. reflexivity.
  - left. destruct H1 as [e1 E1], O2 as [e2 E2]. eauto.
Qed.
Print Assumptions C87_cubic_splines.

(** Cases: values that fill the grid, values that do not. *)
Local Transparent run cubic_program linear_program.
Definition c87_heap : heap Q := mkHeap 2 (fun i => mkNd true (mkArr [Z.of_nat i + 3; 1] (fun idx => inject_Z (nth 0 idx 0)))).
Example C87_hypotheses : dims [0%Q] [2%Q] [3] /\ (0 < h_next c87_heap)%nat /\ (1 < h_next c87_heap)%nat.
Proof. split; [cbn; repeat split; auto with arith|cbn; lia]. Qed.
Example C87_case : let mk c id := snd (make (fun _ => 77%Q) cubic_program c [0%Q] [2%Q] [3] (Some id) c87_heap) in
  mk "CubicSpline" 0%nat = Ok ONone /\ mk "CubicSplines" 0%nat = Ok ONone /\ mk "CubicSpline" 1%nat = Err ValueErr /\ mk "CubicSplines" 1%nat = Err ValueErr.
Proof. vm_compute. auto. Qed.
(** A history that sets other values, reads the grid and writes to it. *)
Example C87_history : Forall (deed_ok (h_next c87_heap)) (deeds [GRead; GWrite [0; 0] 9%Q; GDo (DWrite 0%nat [1; 0] 5%Q); GDo (DSet 0%nat); GDo (DCall (P1 [1%Q]))]).
Proof. repeat constructor. Qed.
