(** The property [grid] of CubicSpline and CubicSplines. *)
From Coq Require Import ZArith List Bool String Lia.
From Verif Require Import Base SplineModel PrefilterModel ArrayModel CartesianModel GradModel ObjectModel SpecObject PySyntax ObSem SpecObText SpecObGrid ObText ObTextA ObTextB ObTextC ObTextD ObTextE ObTextF ObTextG ObTextH.
Import ListNotations.
Open Scope Z_scope.
Open Scope string_scope.
Section Any.
Context {T : Type} {NT : Num T}.
(** ** The trees *)
Definition grid_result (h : heap T) (a b : list T) n att : state T * res (ov T) :=
  match cs_grid a b n with
  | Err e => ((h, att), Err e)
  | Ok P => ((h_alloc h true P, (att ++ [("__grid__", ORef (h_next h) [])])%list), Ok (ORef (h_next h) []))
  end.
Lemma cs_grid_tree junk (h : heap T) a b n c tl : dims a b n -> tail_ok tl ->
  run junk cubic_program "CubicSpline" "grid" [] [] (h, catt a b n c tl) = grid_result h a b n (catt a b n c tl).
Proof.
  intros D. revert a b n D. refine (dims_cases _ _ _ _ _); intros; tail_cases; unfold grid_result, cs_grid; start_tree @run_cs;
  destruct (mlinspace _ _ _ _); reflexivity.
Qed.
Lemma mcs_grid_tree junk (h : heap T) a b n c tl : dims a b n -> mtail_ok tl ->
  run junk cubic_program "CubicSplines" "grid" [] [] (h, matt a b n c tl) = grid_result h a b n (matt a b n c tl).
Proof.
  intros D. revert a b n D. refine (dims_cases _ _ _ _ _); intros;
  match goal with H : mtail_ok _ |- _ => destruct H as [->|[?v ->]] end; unfold grid_result, cs_grid; rewrite run_mcs; unfold matt; cbn [app]; zlens; tree;
  destruct (mlinspace _ _ _ _); reflexivity.
Qed.
(** The attributes after those of [catt] when [grid] has given the array at [l], and without it. *)
Definition with_grid (l : nat) (tl tl' : list (string * ov T)) : Prop :=
  tail_ok tl /\ (tl' = (tl ++ [("__grid__", ORef l [])])%list \/ exists v, tl = [("__values__", v)] /\ tl' = [("__grid__", ORef l []); ("__values__", v)]).
Ltac grid_cases := match goal with H : with_grid _ _ _ |- _ => destruct H as [[->|[?v ->]] [->|(?v & E & ->)]]; try discriminate E end.
Lemma cs_grid_again junk (h : heap T) a b n c tl tl' l : dims a b n -> with_grid l tl tl' ->
  run junk cubic_program "CubicSpline" "grid" [] [] (h, catt a b n c tl') = ((h, catt a b n c tl'), Ok (ORef l [])).
Proof.
  intros D. revert a b n D. refine (dims_cases _ _ _ _ _); intros; grid_cases; start_tree @run_cs; reflexivity.
Qed.
Definition cs_set_res (h : heap T) a b n c tl tv (l : nat) : state T * res (ov T) :=
  let v := nd_arr (h_mem h l) in
  let h1 := h_alloc h true v in
  if negb (all_finite v) then ((h1, catt a b n c tl), Err ValueErr)
  else match areshape v n with
       | Err e => ((h1, catt a b n c tl), Err e)
       | Ok x =>
           match filter_coeffs a b n x with
           | Err e => ((h1, catt a b n c tv), Err e)
           | Ok None => ((h1, catt a b n c tv), Err TypeErr)
           | Ok (Some z) => ((h_alloc h1 true z, catt a b n (ORef (S (h_next h)) []) tv), Ok ONone)
           end
       end.
Ltac close_set :=
  (destruct (all_finite _); cbn [negb]; [|reflexivity]);
  (match goal with |- context [areshape (nd_arr ?x) ?y] => destruct (areshape (nd_arr x) y) as [x1|e]; [|reflexivity] end);
  cbn [bind]; unfold filter_coeffs; cbn [mapM2 bind];
  (match goal with |- context [areshape ?x ?y] => destruct (areshape x y) as [x2|e]; cbn [bind]; [|reflexivity] end);
  unfold filter_dims; rewrite Z.eqb_refl;
  (match goal with |- context [filter_data ?x ?y] => destruct (filter_data x y) as [[z|]|e] end); reflexivity.
Lemma cs_set_grid junk (h : heap T) a b n c tl tl' g l : dims a b n -> with_grid g tl tl' ->
  run junk cubic_program "CubicSpline" "set_values" [ORef l []] [] (h, catt a b n c tl') =
  cs_set_res h a b n c tl' (set_var tl' "__values__" (ORef (h_next h) [n])) l.
Proof.
  intros D. revert a b n D. refine (dims_cases _ _ _ _ _); intros; grid_cases;
  unfold cs_set_res; start_tree @run_cs; close_set.
Qed.
End Any.
