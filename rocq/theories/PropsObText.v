(** C85: the texts of splines.py and multilinear.py, executed, behave like the objects of ObjectModel.v. *)
From Coq Require Import ZArith List Bool String Lia Reals Lra QArith.
From Verif Require Import Base SplineModel PrefilterModel ArrayModel CartesianModel GradModel ObjectModel SpecObject Spec SpecBasis SpecGrad PySyntax ObSem SpecObText ObText ObTextD ObTextE ObTextF ObTextG ObTextH PropsObject.
Import ListNotations.
Open Scope Z_scope.
Open Scope string_scope.

(** Any arithmetic.  A program makes an object without values, then calls [set_values] with its arrays (accepted or
    not), writes to its arrays and calls the object, in any order.  The arrays of the program change by its own writes only, and
    every further call gives what ObjectModel.v gives. *)
Theorem C85_cubic_spline {T} {NT : Num T} junk a b n (h : heap T) hist : dims a b n -> Forall (deed_ok (h_next h)) hist ->
  let w0 := make junk cubic_program "CubicSpline" a b n None h in
  let r := history junk cubic_program "CubicSpline" hist (fst w0) None in
  let m := writes hist (h_mem h) in
  snd w0 = Ok ONone /\ (forall i, (i < h_next h)%nat -> h_mem (fst (fst r)) i = m i) /\
  exists s0 s, cs_new a b n None = Ok s0 /\ after cs_step (events hist) s0 (h_mem h) None = (s, m, snd r) /\
    (forall p, rows p -> same (seen (run junk cubic_program "CubicSpline" "__call__" [pval p] [] (fst r))) (cs_call junk s p)) /\
    (forall p v, rows p -> match v with Some l => (l < h_next h)%nat | None => True end ->
      let c := run junk cubic_program "CubicSpline" "interpolate" [pval p; vref v; OB false] [] (fst r) in
      let x := cs_interpolate junk s p (option_map (fun l => nd_arr (m l)) v) false in
      same (seen c) x /\
      forall i, (i < h_next h)%nat -> h_mem (fst (fst c)) i =
        match v, p, x with
        | Some l, P2 _, Ok (VArr o) => if Nat.eqb i l then mkNd (nd_plain (m l)) o else m i
        | _, _, _ => m i
        end).
Proof.
  intros D F. destruct (cs_text junk a b n h hist D F) as (E0 & s0 & s & E1 & A & Rl). split; [exact E0|].
  split; [intros i Hi; destruct Rl as (_ & M & _); exact (M i Hi)|].
  exists s0, s. split; [exact E1|]. split; [exact A|]. split.
  - intros p Hp. exact (proj1 (cs_call_ok junk _ _ s _ p Rl Hp)).
  - intros p v Hp Hv. destruct (cs_interp_ok junk _ _ s _ p v Rl Hp Hv) as [S1 (_ & M & _)]. split; [exact S1|].
    intros i Hi. cbv zeta in M |- *. rewrite (M i Hi). destruct v as [l|]; [|reflexivity]. destruct p; [reflexivity|].
    destruct (cs_interpolate _ _ _ _ _) as [[]|]; reflexivity.
Qed.
Print Assumptions C85_cubic_spline.
(** In terms of the text only: after any history the object gives what a new object gives with the values of the last
    accepted [set_values], as they were then. *)
Theorem C85_cubic_spline_last {T} {NT : Num T} junk a b n (h : heap T) hist plain : dims a b n -> Forall (deed_ok (h_next h)) hist ->
  let r := history junk cubic_program "CubicSpline" hist (fst (make junk cubic_program "CubicSpline" a b n None h)) None in
  let w1 := make junk cubic_program "CubicSpline" a b n (option_map (fun _ => 0%nat) (snd r)) (alone plain (option_map snd (snd r))) in
  snd w1 = Ok ONone /\ forall p, rows p ->
    same (seen (run junk cubic_program "CubicSpline" "__call__" [pval p] [] (fst r))) (seen (run junk cubic_program "CubicSpline" "__call__" [pval p] [] (fst w1))) /\
    same (seen (run junk cubic_program "CubicSpline" "interpolate" [pval p; ONone; OB false] [] (fst r))) (seen (run junk cubic_program "CubicSpline" "interpolate" [pval p; ONone; OB false] [] (fst w1))).
Proof. exact (cs_text_last junk a b n h hist plain). Qed.
Print Assumptions C85_cubic_spline_last.
Theorem C85_cubic_splines {T} {NT : Num T} junk nan a b n (h : heap T) hist : dims a b n -> Forall (deed_ok (h_next h)) hist ->
  let w0 := make junk cubic_program "CubicSplines" a b n None h in
  let r := history junk cubic_program "CubicSplines" hist (fst w0) None in
  let m := writes hist (h_mem h) in
  snd w0 = Ok ONone /\ (forall i, (i < h_next h)%nat -> h_mem (fst (fst r)) i = m i) /\
  exists s0 s, mcs_new nan a b n None = Ok s0 /\ after (mcs_step nan) (events hist) s0 (h_mem h) None = (s, m, snd r) /\
    forall p, rows p ->
      same (seen (run junk cubic_program "CubicSplines" "__call__" [pval p] [] (fst r))) (mcs_call junk s p) /\
      same (seen (run junk cubic_program "CubicSplines" "interpolate" [pval p; OB false] [] (fst r))) (x <- mcs_interpolate junk s p false ;; Ok (fst x)) /\
      same (seen2 (run junk cubic_program "CubicSplines" "interpolate" [pval p; OB true] [] (fst r))) (mcs_interpolate junk s p true).
Proof.
  intros D F. destruct (mcs_text junk nan a b n h hist D F) as (E0 & s0 & s & E1 & A & Rl). split; [exact E0|].
  split; [intros i Hi; destruct Rl as (_ & M & _); exact (M i Hi)|].
  exists s0, s. split; [exact E1|]. split; [exact A|]. intros p Hp.
  exact (conj (proj1 (mcs_call_ok junk _ _ s _ p Rl Hp)) (conj (proj1 (mcs_interp_ok junk _ _ s _ p Rl Hp)) (proj1 (mcs_diff_ok junk _ _ s _ p Rl Hp)))).
Qed.
Print Assumptions C85_cubic_splines.
Theorem C85_cubic_splines_last {T} {NT : Num T} junk a b n (h : heap T) hist plain : dims a b n -> Forall (deed_ok (h_next h)) hist ->
  let r := history junk cubic_program "CubicSplines" hist (fst (make junk cubic_program "CubicSplines" a b n None h)) None in
  let w1 := make junk cubic_program "CubicSplines" a b n (option_map (fun _ => 0%nat) (snd r)) (alone plain (option_map snd (snd r))) in
  snd w1 = Ok ONone /\ forall p, rows p ->
    same (seen (run junk cubic_program "CubicSplines" "__call__" [pval p] [] (fst r))) (seen (run junk cubic_program "CubicSplines" "__call__" [pval p] [] (fst w1))) /\
    same (seen2 (run junk cubic_program "CubicSplines" "interpolate" [pval p; OB true] [] (fst r))) (seen2 (run junk cubic_program "CubicSplines" "interpolate" [pval p; OB true] [] (fst w1))).
Proof. exact (mcs_text_last junk a b n h hist plain). Qed.
Print Assumptions C85_cubic_splines_last.
(** LinearSpline ([multi = false]) and LinearSplines. *)
Theorem C85_linear {T} {NT : Num T} junk multi a b n (h : heap T) hist : dims a b n -> Forall (deed_ok (h_next h)) hist ->
  let w0 := make junk linear_program (lclass multi) a b n None h in
  let r := history junk linear_program (lclass multi) hist (fst w0) None in
  let m := writes hist (h_mem h) in
  snd w0 = Ok ONone /\ (forall i, (i < h_next h)%nat -> h_mem (fst (fst r)) i = m i) /\
  exists s0 s, ls_new (h_mem h) multi a b n None = Ok s0 /\ after ls_set (events hist) s0 (h_mem h) None = (s, m, snd r) /\
    forall p, rows p ->
      same (seen (run junk linear_program (lclass multi) "__call__" [pval p] [] (fst r))) (ls_call m s p) /\
      same (seen (run junk linear_program (lclass multi) "interpolate" [pval p] [] (fst r))) (ls_interpolate m s p).
Proof.
  intros D F. destruct (ls_text junk multi a b n h hist D F) as (E0 & s0 & s & E1 & A & Rl & Em). split; [exact E0|].
  split; [intros i Hi; destruct Rl as (_ & M & _); exact (M i Hi)|].
  exists s0, s. split; [exact E1|]. split; [exact A|]. intros p Hp.
  pose proof (proj1 (ls_call_ok junk _ _ s _ p Rl Hp)) as Q1. pose proof (proj1 (ls_interp_ok junk _ _ s _ p Rl)) as Q2. rewrite Em in Q1, Q2.
  exact (conj Q1 Q2).
Qed.
Print Assumptions C85_linear.
(** The object gives what a new object gives with the present content of the array of the last accepted [set_values], if the
    array is C-contiguous of type float64, with the content at the call otherwise. *)
Theorem C85_linear_shares {T} {NT : Num T} junk multi a b n (h : heap T) hist : dims a b n -> Forall (deed_ok (h_next h)) hist ->
  let r := history junk linear_program (lclass multi) hist (fst (make junk linear_program (lclass multi) a b n None h)) None in
  let now := content_used (h_mem h) (writes hist (h_mem h)) (snd r) in
  let w1 := make junk linear_program (lclass multi) a b n (option_map (fun _ => 0%nat) (snd r)) (alone false now) in
  snd w1 = Ok ONone /\ forall p, rows p ->
    same (seen (run junk linear_program (lclass multi) "__call__" [pval p] [] (fst r))) (seen (run junk linear_program (lclass multi) "__call__" [pval p] [] (fst w1))) /\
    same (seen (run junk linear_program (lclass multi) "interpolate" [pval p] [] (fst r))) (seen (run junk linear_program (lclass multi) "interpolate" [pval p] [] (fst w1))).
Proof. exact (ls_text_shares junk multi a b n h hist). Qed.
Print Assumptions C85_linear_shares.

(** Real arithmetic: an object made with values that fill the grid gives them at the nodes. *)
Theorem C85_cubic_spline_nodes junk g (h : heap R) id : let V := nd_arr (h_mem h id) in (id < h_next h)%nat ->
  valid_grid (unif_grid g) -> (1 <= List.length g <= 4)%nat -> entries (ashape V) = entries (counts g) ->
  let r := make junk cubic_program "CubicSpline" (lower g) (upper g) (counts g) (Some id) h in
  snd r = Ok ONone /\ forall idx j, inb (counts g) idx = true -> inb (ashape V) j = true -> position (ashape V) j = position (counts g) idx ->
    let pt := node_at (unif_grid g) idx in let v := acell V j in
    point_gives (seen (run junk cubic_program "CubicSpline" "__call__" [OVec pt] [] (fst r))) [] v /\
    point_gives (seen (run junk cubic_program "CubicSpline" "interpolate" [OVec pt; ONone; OB false] [] (fst r))) [] v /\
    rows_give (fun p => seen (run junk cubic_program "CubicSpline" "__call__" [OMat p] [] (fst r))) (zlen g) [] pt [] v /\
    rows_give (fun p => seen (run junk cubic_program "CubicSpline" "interpolate" [OMat p; ONone; OB false] [] (fst r))) (zlen g) [] pt [] v.
Proof.
  intros V Hi Hg L E. destruct (C48_cubic_spline_nodes g V Hg L E) as (s & Es & G).
  pose proof (cs_make_ok junk (h_next h) (lower g) (upper g) (counts g) (Some id) h (dims_grid g L) (le_n _) Hi) as Hm. cbv zeta in Hm. cbn [option_map] in Hm.
  fold V in Hm. rewrite Es in Hm. destruct Hm as [Ho Rl]. split; [exact Ho|]. intros idx j Hx Hj Hp.
  exact (cs_text_gives junk _ _ g s _ _ _ Rl (G idx j Hx Hj Hp)).
Qed.
Print Assumptions C85_cubic_spline_nodes.
Theorem C85_cubic_splines_nodes junk g sh ns (h : heap R) id : let V := nd_arr (h_mem h id) in (id < h_next h)%nat ->
  valid_grid (unif_grid g) -> (1 <= List.length g <= 4)%nat -> ashape V = (sh ++ [ns])%list -> 0 <= ns -> entries (ashape V) = entries (counts g ++ [ns])%list ->
  let r := make junk cubic_program "CubicSplines" (lower g) (upper g) (counts g) (Some id) h in
  snd r = Ok ONone /\ forall idx k j, inb (counts g) idx = true -> 0 <= k < ns -> inb (ashape V) j = true ->
    position (ashape V) j = position (counts g ++ [ns])%list (idx ++ [k])%list ->
    let pt := node_at (unif_grid g) idx in let v := acell V j in
    point_gives (seen (run junk cubic_program "CubicSplines" "__call__" [OVec pt] [] (fst r))) [k] v /\
    rows_give (fun p => seen (run junk cubic_program "CubicSplines" "__call__" [OMat p] [] (fst r))) (zlen g) [ns] pt [k] v /\
    rows_give (fun p => seen (run junk cubic_program "CubicSplines" "interpolate" [OMat p; OB false] [] (fst r))) (zlen g) [ns] pt [k] v.
Proof.
  intros V Hi Hg L Es0 Hn E. destruct (C48_cubic_splines_nodes 0%R g sh ns V Hg L Es0 Hn E) as (s & Es & G).
  pose proof (mcs_make_ok junk 0%R (h_next h) (lower g) (upper g) (counts g) (Some id) h (dims_grid g L) (le_n _) Hi) as Hm. cbv zeta in Hm. cbn [option_map] in Hm.
  fold V in Hm. rewrite Es in Hm. destruct Hm as [Ho Rl]. split; [exact Ho|]. intros idx k j Hx Hk Hj Hp.
  exact (mcs_text_gives junk _ _ g s _ ns _ k _ Rl (G idx k j Hx Hk Hj Hp)).
Qed.
Print Assumptions C85_cubic_splines_nodes.
Theorem C85_linear_nodes junk (multi : bool) g sh ns (h : heap R) id : let V := nd_arr (h_mem h id) in (id < h_next h)%nat ->
  valid_grid (unif_grid g) -> (1 <= List.length g <= 4)%nat -> ashape V = (if multi then (sh ++ [ns])%list else ashape V) -> 0 <= ns ->
  entries (ashape V) = entries (counts g ++ ls_comps multi ns)%list ->
  let r := make junk linear_program (lclass multi) (lower g) (upper g) (counts g) (Some id) h in
  snd r = Ok ONone /\ forall idx suf j, inb (counts g) idx = true -> inb (ls_comps multi ns) suf = true -> inb (ashape V) j = true ->
    position (ashape V) j = position (counts g ++ ls_comps multi ns)%list (idx ++ suf)%list ->
    let pt := node_at (unif_grid g) idx in let v := acell V j in
    point_gives (seen (run junk linear_program (lclass multi) "__call__" [OVec pt] [] (fst r))) suf v /\
    point_gives (seen (run junk linear_program (lclass multi) "interpolate" [OVec pt] [] (fst r))) suf v /\
    rows_give (fun p => seen (run junk linear_program (lclass multi) "__call__" [OMat p] [] (fst r))) (zlen g) (ls_comps multi ns) pt suf v /\
    rows_give (fun p => seen (run junk linear_program (lclass multi) "interpolate" [OMat p] [] (fst r))) (zlen g) (ls_comps multi ns) pt suf v.
Proof.
  intros V Hi Hg L Es0 Hn E. destruct (C48_linear_nodes (h_mem h) multi g sh ns id Hg Es0 Hn E) as (s & Es & G).
  pose proof (ls_make_ok junk multi (h_next h) (lower g) (upper g) (counts g) (Some id) h (dims_grid g L) (le_n _) Hi) as Hm. cbv zeta in Hm.
  rewrite Es in Hm. destruct Hm as (Ho & Rl & Em). split; [exact Ho|]. intros idx suf j Hx Hk Hj Hp.
  exact (ls_text_gives junk _ _ multi g s _ _ _ suf _ Rl Em (G idx suf j Hx Hk Hj Hp)).
Qed.
Print Assumptions C85_linear_nodes.

(** Cases.  Two arrays [1 2 3] and [4 5 6] of the program; the grid has the nodes 0, 1, 2. *)
Definition c85_heap : heap Q := mkHeap 2 (fun i => mkNd true (mkArr [3] (fun idx => inject_Z (nth 0 idx 0 + 1 + 3 * Z.of_nat i)))).
Definition c85_hist : list (deed Q) := [DSet 1; DCall (P1 [1%Q]); DSet 0; DWrite 0 [2] 9%Q; DCall (P2 (mkArr [2; 1] (fun _ => 1%Q)))].
Definition c85_at (P : option (list stmt)) c : res (pyval Q) :=
  seen (run (fun _ => 77%Q) P c "__call__" [OVec [2%Q]] []
    (fst (history (fun _ => 77%Q) P c c85_hist (fst (make (fun _ => 77%Q) P c [0%Q] [2%Q] [3] None c85_heap)) None))).
Example C85_hypotheses : dims [0%Q] [2%Q] [3] /\ Forall (deed_ok (h_next c85_heap)) c85_hist.
Proof. split; [cbn; repeat split; auto with arith|]. repeat constructor. exists 2, 1. reflexivity. Qed.
(** CubicSpline has copied the values: 3 at the last node.  LinearSpline shares them: 9. *)
Example C85_case_cubic : match c85_at cubic_program "CubicSpline" with Ok (VNum x) => (x == 3)%Q | _ => False end.
Proof. vm_compute. reflexivity. Qed.
Example C85_case_linear : match c85_at linear_program "LinearSpline" with Ok (VNum x) => (x == 9)%Q | _ => False end.
Proof. vm_compute. reflexivity. Qed.
(** Two functions on the same nodes, [x+1] and [10x]; then a rejected [set_values]. *)
Example C85_case_cubic_splines :
  let h := mkHeap 2 (fun i => match i with O => mkNd true (mkArr [3; 2] (fun idx => if (nth 1 idx 0 =? 0)%Z then inject_Z (nth 0 idx 0 + 1) else inject_Z (10 * nth 0 idx 0)))
                                        | _ => mkNd true (mkArr [2; 2] (fun _ => 5%Q)) end) in
  let w0 := make (fun _ => 77%Q) cubic_program "CubicSplines" [0%Q] [2%Q] [3] (Some 0%nat) h in
  let w1 := run (fun _ => 77%Q) cubic_program "CubicSplines" "set_values" [ORef 1%nat []] [] (fst w0) in
  snd w0 = Ok ONone /\ snd w1 = Err ValueErr /\
  match seen (run (fun _ => 77%Q) cubic_program "CubicSplines" "__call__" [OVec [2%Q]] [] (fst w1)) with
  | Ok (VArr o) => ashape o = [2] /\ (acell o [0%Z] == 3)%Q /\ (acell o [1%Z] == 20)%Q | _ => False end.
Proof. vm_compute. repeat split; reflexivity. Qed.
Example C85_nodes_hypotheses : let g := [(0%R, 2%R, 3)] in let h := mkHeap 1 (fun _ => mkNd true (mkArr [3] (fun idx => IZR (nth 0 idx 0)))) in
  (0 < h_next h)%nat /\ valid_grid (unif_grid g) /\ (1 <= List.length g <= 4)%nat /\ entries (ashape (nd_arr (h_mem h 0%nat))) = entries (counts g).
Proof. split; [cbn; lia|]. split; [constructor; [|constructor]; split; cbn; [lia|lra]|]. split; [cbn; lia|reflexivity]. Qed.
