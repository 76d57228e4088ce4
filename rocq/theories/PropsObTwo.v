(** C88: two objects of the spline classes in one program do not affect each other. *)
From Coq Require Import ZArith List Bool String Lia QArith.
From Verif Require Import Base SplineModel PrefilterModel ArrayModel CartesianModel GradModel ObjectModel SpecObject PySyntax ObSem SpecObText SpecObTwo ObText ObTextE ObTextF ObTextG ObTextH ObTextN.
Import ListNotations.
Open Scope Z_scope.
Open Scope string_scope.
Local Opaque run cubic_program linear_program.

(** Any two of the four classes; the deeds with the two objects and the writes of the program in any order.  A call of
    one object gives what it would give in a program without the other; the arrays of the program are changed by the
    program only. *)
Theorem C88_two_objects {T} {NT : Num T} junk c d a b n a' b' n' (h : heap T) hist : dims a b n -> dims a' b' n' ->
  Forall (deed_ok (h_next h)) (map snd hist) ->
  let wa := fst (make junk (text_of c) (name_of c) a b n None h) in
  let wb := fst (make junk (text_of d) (name_of d) a' b' n' None (fst wa)) in
  let r := both junk c d hist (fst wb) (snd wa) (snd wb) in
  let only_a := fst (history junk (text_of c) (name_of c) (part true hist) wa None) in
  let only_b := fst (history junk (text_of d) (name_of d) (part false hist) (fst (make junk (text_of d) (name_of d) a' b' n' None h)) None) in
  (forall i, (i < h_next h)%nat -> h_mem (fst (fst r)) i = writes (map snd hist) (h_mem h) i) /\
  forall p, rows p ->
    same (seen (meth junk c "__call__" (pval p) (fst (fst r), snd (fst r)))) (seen (meth junk c "__call__" (pval p) only_a)) /\
    same (seen (meth junk d "__call__" (pval p) (fst (fst r), snd r))) (seen (meth junk d "__call__" (pval p) only_b)).
Proof.
  intros D D' F wa wb. destruct (knew junk c a b n h D) as (Eh & sa & Ra). fold wa in Eh, Ra.
  unfold wb. rewrite Eh. clear wb. destruct (knew junk d a' b' n' h D') as (Eh' & sb & Rb).
  set (wb := fst (make junk (text_of d) (name_of d) a' b' n' None h)) in *. rewrite Eh'.
  clearbody wa wb. cbv zeta.
  assert (Ra' : krel (h_next h) c (h_mem h) sa (h, snd wa)) by (rewrite <- Eh at 3; rewrite <- surjective_pairing; exact Ra).
  assert (Rb' : krel (h_next h) d (h_mem h) sb (h, snd wb)) by (rewrite <- Eh' at 3; rewrite <- surjective_pairing; exact Rb).
  destruct (both_ok junk _ c d hist _ sa sb h (snd wa) (snd wb) wa wb None None F Ra' Rb' Ra Rb) as (sa' & sb' & R1 & R2 & R3 & R4).
  split; [intros i Hi; exact (krel_mem _ _ _ _ _ i R1 Hi)|]. intros p Hp. split.
  - exact (same_trans _ _ _ (proj1 (krel_call junk _ _ _ _ _ p R1 Hp)) (same_sym _ _ (proj1 (krel_call junk _ _ _ _ _ p R3 Hp)))).
  - exact (same_trans _ _ _ (proj1 (krel_call junk _ _ _ _ _ p R2 Hp)) (same_sym _ _ (proj1 (krel_call junk _ _ _ _ _ p R4 Hp)))).
Qed.
Print Assumptions C88_two_objects.

(** Gradients of CubicSplines, with an object of any class beside it. *)
Theorem C88_gradients {T} {NT : Num T} junk d a b n a' b' n' (h : heap T) hist : dims a b n -> dims a' b' n' ->
  Forall (deed_ok (h_next h)) (map snd hist) ->
  let wa := fst (make junk cubic_program "CubicSplines" a b n None h) in
  let wb := fst (make junk (text_of d) (name_of d) a' b' n' None (fst wa)) in
  let r := both junk KCubics d hist (fst wb) (snd wa) (snd wb) in
  let only_a := fst (history junk cubic_program "CubicSplines" (part true hist) wa None) in
  forall p, rows p ->
    same (seen2 (run junk cubic_program "CubicSplines" "interpolate" [pval p; OB true] [] (fst (fst r), snd (fst r)))) (seen2 (run junk cubic_program "CubicSplines" "interpolate" [pval p; OB true] [] only_a)).
Proof.
  intros D D' F wa wb. destruct (knew junk KCubics a b n h D) as (Eh & sa & Ra). cbn [text_of name_of] in Eh, Ra. fold wa in Eh, Ra.
  unfold wb. rewrite Eh. clear wb. destruct (knew junk d a' b' n' h D') as (Eh' & sb & Rb).
  set (wb := fst (make junk (text_of d) (name_of d) a' b' n' None h)) in *. rewrite Eh'.
  clearbody wa wb. cbv zeta.
  assert (Ra' : krel (h_next h) KCubics (h_mem h) sa (h, snd wa)) by (rewrite <- Eh at 3; rewrite <- surjective_pairing; exact Ra).
  assert (Rb' : krel (h_next h) d (h_mem h) sb (h, snd wb)) by (rewrite <- Eh' at 3; rewrite <- surjective_pairing; exact Rb).
  destruct (both_ok junk _ KCubics d hist _ sa sb h (snd wa) (snd wb) wa wb None None F Ra' Rb' Ra Rb) as (sa' & sb' & R1 & _ & R3 & _).
  intros p Hp.
  exact (same_trans _ _ _ (proj1 (mcs_diff_ok junk _ _ _ _ p R1 Hp)) (same_sym _ _ (proj1 (mcs_diff_ok junk _ _ _ _ p R3 Hp)))).
Qed.
Print Assumptions C88_gradients.

(** A case: a CubicSpline and a LinearSpline with the same array, which the program then changes.  The CubicSpline keeps
    its values, the LinearSpline sees the change. *)
Local Transparent run cubic_program linear_program.
Definition c88_heap : heap Q := mkHeap 1 (fun _ => mkNd true (mkArr [3] (fun idx => inject_Z (nth 0 idx 0)))).
Definition c88_hist : list (bool * deed Q) :=
  [(true, DSet 0%nat); (false, DSet 0%nat); (true, DWrite 0%nat [2] 7%Q); (false, DCall (P1 [1%Q])); (true, DCall (P1 [1%Q]))].
Example C88_hypotheses : dims [0%Q] [2%Q] [3] /\ Forall (deed_ok (h_next c88_heap)) (map snd c88_hist).
Proof. split; [cbn; repeat split; auto with arith|repeat constructor]. Qed.
Example C88_case :
  let wa := fst (make (fun _ => 77%Q) cubic_program "CubicSpline" [0%Q] [2%Q] [3] None c88_heap) in
  let wb := fst (make (fun _ => 77%Q) linear_program "LinearSpline" [0%Q] [2%Q] [3] None (fst wa)) in
  let r := both (fun _ => 77%Q) KCubic (KLinear false) c88_hist (fst wb) (snd wa) (snd wb) in
  match seen (meth (fun _ => 77%Q) KCubic "__call__" (OVec [2%Q]) (fst (fst r), snd (fst r))), seen (meth (fun _ => 77%Q) (KLinear false) "__call__" (OVec [2%Q]) (fst (fst r), snd r)) with
  | Ok (VNum x), Ok (VNum y) => (x == 2)%Q /\ (y == 7)%Q | _, _ => False end.
Proof. vm_compute. split; reflexivity. Qed.
