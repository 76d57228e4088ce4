(** The trees of operations of the methods of CubicSpline. *)
From Coq Require Import ZArith List Bool String Lia.
From Verif Require Import Base SplineModel PrefilterModel ArrayModel CartesianModel GradModel ObjectModel SpecObject PySyntax ObSem SpecObText ObText.
Import ListNotations.
Open Scope Z_scope.
Open Scope string_scope.
Section Any.
Context {T : Type} {NT : Num T}.
Definition cs_set_result (h : heap T) a b n c tl (l : nat) : state T * res (ov T) :=
  let v := nd_arr (h_mem h l) in
  let h1 := h_alloc h true v in
  let tv := [("__values__", ORef (h_next h) [n])] in
  if negb (all_finite v) then ((h1, catt a b n c tl), Err ValueErr)
  else match areshape v n with
       | Err e => ((h1, catt a b n c tl), Err e)
       | Ok x =>
           match filter_coeffs a b n x with
           | Err e => ((h1, catt a b n c tv), Err e)
           | Ok None => ((h1, catt a b n c tv), Err TypeErr)
           | Ok (Some z) => ((h_alloc h1 true z, catt a b n (ORef (S (h_next h)) []) tv), Ok ONone)
           end
       end.

Ltac close_set :=
  (destruct (all_finite _); cbn [negb]; [|reflexivity]);
  (match goal with |- context [areshape (nd_arr ?x) ?y] => destruct (areshape (nd_arr x) y) as [x1|e]; [|reflexivity] end);
  cbn [bind]; unfold filter_coeffs; cbn [mapM2 bind];
  (match goal with |- context [areshape ?x ?y] => destruct (areshape x y) as [x2|e]; cbn [bind]; [|reflexivity] end);
  unfold filter_dims; rewrite Z.eqb_refl;
  (match goal with |- context [filter_data ?x ?y] => destruct (filter_data x y) as [[z|]|e] end); reflexivity.
Lemma cs_set_tree junk (h : heap T) a b n c tl l : dims a b n -> tail_ok tl ->
  run junk cubic_program "CubicSpline" "set_values" [ORef l []] [] (h, catt a b n c tl) = cs_set_result h a b n c tl l.
Proof.
  intros D. revert a b n D. refine (dims_cases _ _ _ _ _); intros;
  tail_cases;
  unfold cs_set_result; start_tree @run_cs; close_set.
Qed.

Ltac close_tree :=
  unfold h_store, h_alloc, ret_py, zlen; cbn [h_mem h_next fst snd negb]; rewrite ?put_same; cbn [nd_plain nd_arr];
  repeat (match goal with
          | |- context [forallb n_finite ?x] => destruct (forallb n_finite x); cbn [negb]
          | |- context [all_finite ?x] => destruct (all_finite x); cbn [negb]
          | |- context [(?x =? ?y)%Z] => destruct (x =? y)%Z
          | |- context [eval_cubic ?g ?c ?p ?o None] => destruct (eval_cubic g c p o None) as [[[] []]|]; cbn [fst snd]
          end; try reflexivity).
Lemma cs_point_tree junk (h : heap T) a b n c tl x v : dims a b n -> coef_ref c ->
  run junk cubic_program "CubicSpline" "interpolate" [OVec x; vref v; OB false] [] (h, catt a b n c tl) = cs_point_result h a b n c tl x.
Proof.
  intros D. revert a b n D. refine (dims_cases _ _ _ _ _); intros; coef_cases; destruct v as [lo|]; unfold vref;
  unfold cs_point_result, cubic_at; start_tree @run_cs; cbn [g3]; close_tree.
Qed.
Lemma cs_rows_tree junk (h : heap T) a b n c tl N D f v : dims a b n -> coef_ref c ->
  run junk cubic_program "CubicSpline" "interpolate" [OMat (mkArr [N; D] f); vref v; OB false] [] (h, catt a b n c tl) = cs_rows_result junk h a b n c tl N D f v.
Proof.
  intros DD. revert a b n DD. refine (dims_cases _ _ _ _ _); intros; coef_cases; destruct v as [lo|]; unfold vref;
  unfold cs_rows_result, cubic_at; start_tree @run_cs; cbn [g3]; close_tree.
Qed.
Lemma cs_call_rows_tree junk (h : heap T) a b n c tl N D f : dims a b n -> coef_ref c ->
  run junk cubic_program "CubicSpline" "__call__" [OMat (mkArr [N; D] f)] [] (h, catt a b n c tl) = cs_rows_result junk h a b n c tl N D f None.
Proof.
  intros DD. revert a b n DD. refine (dims_cases _ _ _ _ _); intros; coef_cases;
  unfold cs_rows_result, cubic_at; start_tree @run_cs; cbn [g3]; close_tree.
Qed.
Definition first_of (r : state T * res (ov T)) : state T * res (ov T) :=
  match r with
  | (w, Ok (ORef l _)) => match first_row (VArr (nd_arr (h_mem (fst w) l))) with Ok v => ret_py w v | Err e => (w, Err e) end
  | (w, Ok _) => (w, Err TypeErr)
  | (w, Err e) => (w, Err e)
  end.
Lemma cs_call_point_tree junk (h : heap T) a b n c tl x : dims a b n -> coef_ref c ->
  run junk cubic_program "CubicSpline" "__call__" [OVec x] [] (h, catt a b n c tl) =
  first_of (cs_rows_result junk h a b n c tl 1 (zlen x) (acell (atleast_2d x)) None).
Proof.
  intros DD. revert a b n DD. refine (dims_cases _ _ _ _ _); intros; coef_cases;
  unfold cs_rows_result, cubic_at; start_tree @run_cs; cbn [g3]; close_tree.
Qed.
Lemma cs_new_tree junk (h : heap T) a b n v : dims a b n ->
  run junk cubic_program "CubicSpline" "__init__" [OL (map OF a); OL (map OF b); OL (map OI n); vref v] [] (h, []) =
  match v with None => ((h, catt a b n ONone []), Ok ONone) | Some l => cs_set_result h a b n ONone [] l end.
Proof.
  intros DD. revert a b n DD. refine (dims_cases _ _ _ _ _); intros; (destruct v as [l|]; unfold vref; cbn [map];
  [unfold cs_set_result; start_tree @run_cs; close_set | start_tree @run_cs; reflexivity]).
Qed.
End Any.
