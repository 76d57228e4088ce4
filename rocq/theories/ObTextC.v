(** The trees of operations of the methods of CubicSplines: construction and evaluation. *)
From Coq Require Import ZArith List Bool String Lia.
From Verif Require Import Base SplineModel PrefilterModel ArrayModel CartesianModel GradModel ObjectModel SpecObject PySyntax ObSem SpecObText ObText ObTextB.
Import ListNotations.
Open Scope Z_scope.
Open Scope string_scope.
Section Any.
Context {T : Type} {NT : Num T}.

Definition mcs_rows_result junk (h : heap T) a b n c tl N D f (diff : bool) : state T * res (ov T) :=
  let p := mkArr [N; D] f in
  let at0 := matt a b n c tl in
  if negb (D =? zlen a)%Z then ((h, at0), Err ValueErr)
  else if negb (all_finite p) then ((h, at0), Err ValueErr)
  else match c with
       | ORef l [] =>
           match last_dim (nd_arr (h_mem h l)) with
           | Err e => ((h, at0), Err e)
           | Ok ns =>
               let h1 := h_alloc h true (mkArr [N; ns] junk) in
               if diff then
                 let h2 := h_alloc h1 true (mkArr [N; D; ns] junk) in
                 match last_dim (nd_arr (h_mem h2 l)) with
                 | Err e => ((h2, at0), Err e)
                 | Ok _ =>
                     match splines_G (zlen a) a b n (nd_arr (h_mem h2 l)) p (nd_arr (h_mem h2 (h_next h))) (mkArr [N; D; ns] junk) with
                     | Err e => ((h2, at0), Err e)
                     | Ok r => ((h_store (h_store h2 (h_next h) (fst r)) (S (h_next h)) (snd r), at0), Ok (OL [ORef (h_next h) []; ORef (S (h_next h)) []]))
                     end
                 end
               else
                 match eval_cubic (g3 a b n) (nd_arr (h_mem h1 l)) (P2 p) (Some (mkArr [N; ns] junk)) None with
                 | Err e => ((h1, at0), Err e)
                 | Ok r => match snd r with Some o => ((h_store h1 (h_next h) o, at0), Ok (ORef (h_next h) [])) | None => ((h1, at0), Err TypeErr) end
                 end
           end
       | _ => ((h, at0), Err TypeErr)
       end.
Ltac prep := unfold matt, last_dim, ashape; cbn [app map g3 negb]; zlens.
Ltac close_mtree :=
  unfold h_store, h_alloc, ret_py, zlen; cbn [h_mem h_next fst snd negb]; rewrite ?put_same; cbn [nd_plain nd_arr negb];
  repeat (match goal with
          | |- context [(?x =? ?y)%Z] => destruct (x =? y)%Z; cbn [negb]
          | |- context [all_finite ?x] => destruct (all_finite x); cbn [negb]
          | |- context [lget ?x ?y] => destruct (lget x y); heap_simpl
          | |- context [eval_cubic ?g ?c ?p ?o None] => destruct (eval_cubic g c p o None) as [[[] []]|]; cbn [fst snd]
          | |- context [splines_G ?a ?b ?c ?d ?e ?f ?g ?h] => destruct (splines_G a b c d e f g h) as [[? ?]|]; cbn [fst snd]
          end; try reflexivity).
Lemma mcs_rows_tree junk (h : heap T) a b n c tl N D f diff : dims a b n -> coef_ref c ->
  run junk cubic_program "CubicSplines" "interpolate" [OMat (mkArr [N; D] f); OB diff] [] (h, matt a b n c tl) = mcs_rows_result junk h a b n c tl N D f diff.
Proof.
  intros DD. revert a b n DD. refine (dims_cases _ _ _ _ _); intros; coef_cases; destruct diff;
  unfold mcs_rows_result; prep; rewrite run_mcs; tree; change (-1 <? 0)%Z with true; cbn [Z.eqb Pos.eqb]; heap_simpl; close_mtree.
Qed.
Lemma mcs_point_tree junk (h : heap T) a b n c tl x diff : dims a b n -> coef_ref c ->
  run junk cubic_program "CubicSplines" "interpolate" [OVec x; OB diff] [] (h, matt a b n c tl) = ((h, matt a b n c tl), Err ValueErr).
Proof.
  intros DD. revert a b n DD. refine (dims_cases _ _ _ _ _); intros; coef_cases; destruct diff;
  prep; rewrite run_mcs; tree; reflexivity.
Qed.
Lemma mcs_call_rows_tree junk (h : heap T) a b n c tl N D f : dims a b n -> coef_ref c ->
  run junk cubic_program "CubicSplines" "__call__" [OMat (mkArr [N; D] f)] [] (h, matt a b n c tl) = mcs_rows_result junk h a b n c tl N D f false.
Proof.
  intros DD. revert a b n DD. refine (dims_cases _ _ _ _ _); intros; coef_cases;
  unfold mcs_rows_result; prep; rewrite run_mcs; tree; change (-1 <? 0)%Z with true; cbn [Z.eqb Pos.eqb]; heap_simpl; close_mtree.
Qed.
Definition ravel_of (r : state T * res (ov T)) : state T * res (ov T) :=
  match r with
  | (w, Ok (ORef l _)) => let x := nd_arr (h_mem (fst w) l) in match areshape x [zprod (ashape x)] with Ok v => ret_py w (VArr v) | Err e => (w, Err e) end
  | (w, Ok _) => (w, Err TypeErr)
  | (w, Err e) => (w, Err e)
  end.
Lemma mcs_call_point_tree junk (h : heap T) a b n c tl x : dims a b n -> coef_ref c ->
  run junk cubic_program "CubicSplines" "__call__" [OVec x] [] (h, matt a b n c tl) =
  ravel_of (mcs_rows_result junk h a b n c tl 1 (zlen x) (acell (atleast_2d x)) false).
Proof.
  intros DD. revert a b n DD. refine (dims_cases _ _ _ _ _); intros; coef_cases;
  unfold mcs_rows_result; prep; rewrite run_mcs; tree; change (-1 <? 0)%Z with true; cbn [Z.eqb Pos.eqb]; heap_simpl; close_mtree.
Qed.
Lemma mcs_new_tree junk F (h : heap T) a b n v : dims a b n ->
  callm (np_ops junk) PC F cm 100 "__init__" [OL (map OF a); OL (map OF b); OL (map OI n); vref v] [] (h, []) okret =
  match v with None => ((h, matt a b n ONone []), Ok ONone) | Some l => mcs_set_result 74%nat F h a b n ONone [] l end.
Proof.
  intros DD. revert a b n DD. refine (dims_cases _ _ _ _ _); intros;
  (destruct v as [l|]; unfold vref; cbn [map];
  [ unfold mcs_set_result; prep; tree; change (-1 <? 0)%Z with true; cbn [Z.eqb Pos.eqb]; heap_simpl | prep; tree; reflexivity]).
  all: (match goal with |- context [lget ?x ?y] => destruct (lget x y) as [ns|e]; [|reflexivity] end);
  heap_simpl;
  (match goal with |- context [areshape ?x ?y] => destruct (areshape x y) as [x1|e]; [|reflexivity] end);
  (destruct (all_finite x1); [|reflexivity]); cbn [negb];
  (match goal with |- context [lget ?x ?y] => destruct (lget x y) as [m|e] end); try reflexivity.
Qed.
End Any.
