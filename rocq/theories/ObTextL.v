(** The trees of operations of CubicSplines when the grid may have been read. *)
From Coq Require Import ZArith List Bool String Lia.
From Verif Require Import Base SplineModel PrefilterModel ArrayModel CartesianModel GradModel ObjectModel SpecObject PySyntax ObSem SpecObText SpecObGrid ObText ObTextA ObTextB ObTextC ObTextD ObTextE ObTextF ObTextG ObTextH ObTextI.
Import ListNotations.
Open Scope Z_scope.
Open Scope string_scope.
Section Any.
Context {T : Type} {NT : Num T}.
(** The attributes after those of [matt] without and with the grid. *)
Definition mtails (g : option nat) (tl tl' : list (string * ov T)) : Prop :=
  mtail_ok tl /\ match g with
  | None => tl' = tl
  | Some l => tl' = (tl ++ [("__grid__", ORef l [])])%list \/ exists v, tl = [("__mvalues__", v)] /\ tl' = [("__grid__", ORef l []); ("__mvalues__", v)]
  end.
Lemma mgrid_again junk (h : heap T) a b n c tl tl' l : dims a b n -> mtails (Some l) tl tl' ->
  run junk cubic_program "CubicSplines" "grid" [] [] (h, matt a b n c tl') = ((h, matt a b n c tl'), Ok (ORef l [])).
Proof.
  intros D. revert a b n D. refine (dims_cases _ _ _ _ _); intros;
  match goal with H : mtails _ _ _ |- _ => destruct H as [[->|[?v ->]] [->|(?v & E & ->)]]; try discriminate E end;
  rewrite run_mcs; unfold matt; cbn [app]; zlens; tree; reflexivity.
Qed.
Lemma mset_grid junk F (h : heap T) a b n c tl tl' g l : dims a b n -> mtails (Some g) tl tl' ->
  callm (np_ops junk) PC F cm 100 "set_values" [ORef l []] [] (h, matt a b n c tl') okret = mcs_set_result 86 F h a b n c tl' l.
Proof.
  intros D. revert a b n D. refine (dims_cases _ _ _ _ _); intros;
  match goal with H : mtails _ _ _ |- _ => destruct H as [[->|[?v ->]] [->|(?v & E & ->)]]; try discriminate E end;
  unfold mcs_set_result, matt, last_dim, ashape; cbn [app map]; 
  zlens; tree; change (-1 <? 0)%Z with true; cbn [Z.eqb Pos.eqb]; heap_simpl;
  (match goal with |- context [lget ?x ?y] => destruct (lget x y) as [ns|e]; [|reflexivity] end);
  heap_simpl;
  (match goal with |- context [areshape ?x ?y] => destruct (areshape x y) as [x1|e]; [|reflexivity] end);
  (destruct (all_finite x1); [|reflexivity]); cbn [negb];
  (match goal with |- context [lget ?x ?y] => destruct (lget x y) as [m|e]; reflexivity end).
Qed.
Lemma mset_tails junk (h : heap T) a b n c tl tl' g l : dims a b n -> mtails g tl tl' ->
  run junk cubic_program "CubicSplines" "set_values" [ORef l []] [] (h, matt a b n c tl') = mcs_set_result 86 (loops (np_ops junk) PC cm 3) h a b n c tl' l.
Proof.
  intros D M. rewrite run_mcs. destruct g as [g|]; [exact (mset_grid junk _ h a b n c tl tl' g l D M)|].
  destruct M as [Tl ->]. exact (mcs_set_tree junk _ h a b n c tl l D Tl).
Qed.
End Any.
