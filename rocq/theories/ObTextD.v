(** The trees of operations of the methods of LinearSpline and LinearSplines. *)
From Coq Require Import ZArith List Bool String Lia.
From Verif Require Import Base SplineModel PrefilterModel ArrayModel CartesianModel GradModel ObjectModel SpecObject PySyntax ObSem SpecObText ObText ObTextB.
Import ListNotations.
Open Scope Z_scope.
Open Scope string_scope.
Definition PL := Eval vm_compute in get linear_program.
Definition ll := Eval vm_compute in find_class PL "LinearSpline".
Definition lm := Eval vm_compute in find_class PL "LinearSplines".
Lemma linear_program_is : linear_program = Some PL. Proof. vm_compute. reflexivity. Qed.
Section Any.
Context {T : Type} {NT : Num T}.
Lemma run_ls junk m vs kws (w : state T) :
  run junk linear_program "LinearSpline" m vs kws w = callm (np_ops junk) PL (loops (np_ops junk) PL ll 3) ll 100 m vs kws w okret.
Proof. unfold run. rewrite linear_program_is. reflexivity. Qed.
Lemma run_lm junk m vs kws (w : state T) :
  run junk linear_program "LinearSplines" m vs kws w = callm (np_ops junk) PL (loops (np_ops junk) PL lm 3) lm 100 m vs kws w okret.
Proof. unfold run. rewrite linear_program_is. reflexivity. Qed.

Definition lname (multi : bool) : string := if multi then "mvalues" else "values".
Definition latt (a b : list T) (n : list Z) tl : list (string * ov T) :=
  [("smin", OVec a); ("smax", OVec b); ("orders", OIVec n); ("d", OI (zlen n)); ("dtype", OS "np.float64")] ++ tl.
Definition ltail (multi : bool) (v : option (nat * list (list Z))) : list (string * ov T) :=
  match v with None => [] | Some (l, vs) => [(lname multi, ORef l vs)] end.

Definition ls_set_result (multi : bool) (h : heap T) a b n v (l : nat) : state T * res (ov T) :=
  let V := nd_arr (h_mem h l) in
  match (if multi then ns <- last_dim V ;; Ok (n ++ [ns])%list else Ok n) with
  | Err e => ((h, latt a b n (ltail multi v)), Err e)
  | Ok sh =>
      match areshape V sh with
      | Err e => ((h, latt a b n (ltail multi v)), Err e)
      | Ok x =>
          if nd_plain (h_mem h l) then ((h, latt a b n (ltail multi (Some (l, [sh])))), Ok ONone)
          else ((h_alloc (h_alloc h false x) true x, latt a b n (ltail multi (Some (S (h_next h), [])))), Ok ONone)
      end
  end.
Definition ls_interp_result (multi : bool) (h : heap T) a b n v p : state T * res (ov T) :=
  let w := (h, latt a b n (ltail multi v)) in
  match v with
  | None => (w, Err NameErr)
  | Some (l, vs) =>
      match h_read h l vs with
      | Err e => (w, Err e)
      | Ok x => match eval_linear (g3 a b n) x p None None with Err e => (w, Err e) | Ok r => ret_py w (fst r) end
      end
  end.
(** [res[0]], [res.ravel()] *)
Definition first_val (r : state T * res (ov T)) : state T * res (ov T) :=
  match r with
  | (w, Ok (ORef l _)) => match first_row (VArr (nd_arr (h_mem (fst w) l))) with Ok v => ret_py w v | Err e => (w, Err e) end
  | (w, Ok (OL l)) => match nth_error l 0 with Some x => (w, Ok x) | None => (w, Err IndexErr) end
  | (w, Ok _) => (w, Err TypeErr)
  | (w, Err e) => (w, Err e)
  end.
Definition ravel_val' (r : state T * res (ov T)) : state T * res (ov T) :=
  match r with
  | (w, Ok (ORef l _)) => let x := nd_arr (h_mem (fst w) l) in match areshape x [zprod (ashape x)] with Ok v => ret_py w (VArr v) | Err e => (w, Err e) end
  | (w, Ok _) => (w, Err TypeErr)
  | (w, Err e) => (w, Err e)
  end.
Ltac prep := unfold latt, ltail, lname, lclass, last_dim, ashape, pval; cbn [app map g3 negb bind]; zlens.
Ltac lrun := (rewrite run_ls || rewrite run_lm); tree; change (-1 <? 0)%Z with true; cbn [Z.eqb Pos.eqb]; heap_simpl.
Ltac close_ltree :=
  unfold h_store, h_alloc, ret_py; cbn [h_mem h_next fst snd negb]; rewrite ?put_same; cbn [nd_plain nd_arr negb];
  repeat (match goal with
          | |- context [lget ?x ?y] => destruct (lget x y); cbn [bind]; heap_simpl
          | |- context [areshape ?x ?y] => destruct (areshape x y); heap_simpl
          | |- context [h_read ?x ?y ?z] => destruct (h_read x y z); heap_simpl
          | |- context [nd_plain ?x] => destruct (nd_plain x); heap_simpl
          | |- context [eval_linear ?g ?c ?p ?o None] => destruct (eval_linear g c p o None) as [[[] []]|]; cbn [fst snd first_val ravel_val' ret_py]; unfold h_alloc; heap_simpl
          | |- context [first_row ?x] => destruct (first_row x) as [[]|]; cbn [ret_py fst snd]; heap_simpl
          end; try reflexivity); try reflexivity.
Lemma ls_set_tree junk multi (h : heap T) a b n v l : dims a b n ->
  run junk linear_program (lclass multi) "set_values" [ORef l []] [] (h, latt a b n (ltail multi v)) = ls_set_result multi h a b n v l.
Proof.
  intros DD. revert a b n DD. refine (dims_cases _ _ _ _ _); intros; destruct multi; destruct v as [[lv vs]|];
  unfold ls_set_result; prep; lrun; close_ltree.
Qed.
Lemma ls_new_tree junk multi (h : heap T) a b n v : dims a b n ->
  run junk linear_program (lclass multi) "__init__" [OL (map OF a); OL (map OF b); OL (map OI n); vref v] [] (h, []) =
  match v with None => ((h, latt a b n []), Ok ONone) | Some l => ls_set_result multi h a b n None l end.
Proof.
  intros DD. revert a b n DD. refine (dims_cases _ _ _ _ _); intros; destruct multi; destruct v as [l|]; unfold vref;
  unfold ls_set_result; prep; lrun; close_ltree.
Qed.
Lemma ls_interp_tree junk multi (h : heap T) a b n v p : dims a b n -> 
  run junk linear_program (lclass multi) "interpolate" [pval p] [] (h, latt a b n (ltail multi v)) = ls_interp_result multi h a b n v p.
Proof.
  intros DD. revert a b n DD. refine (dims_cases _ _ _ _ _); intros; destruct multi; destruct v as [[lv vs]|]; destruct p;
  unfold ls_interp_result; prep; lrun; close_ltree.
Qed.
Lemma ls_call_rows_tree junk multi (h : heap T) a b n v N D f : dims a b n ->
  run junk linear_program (lclass multi) "__call__" [OMat (mkArr [N; D] f)] [] (h, latt a b n (ltail multi v)) = ls_interp_result multi h a b n v (P2 (mkArr [N; D] f)).
Proof.
  intros DD. revert a b n DD. refine (dims_cases _ _ _ _ _); intros; destruct multi; destruct v as [[lv vs]|];
  unfold ls_interp_result; prep; lrun; close_ltree.
Qed.
Lemma ls_call_point_tree junk multi (h : heap T) a b n v x : dims a b n ->
  run junk linear_program (lclass multi) "__call__" [OVec x] [] (h, latt a b n (ltail multi v)) =
  (if multi then ravel_val' else first_val) (ls_interp_result multi h a b n v (P2 (mkArr [1; zlen x] (acell (atleast_2d x))))).
Proof.
  intros DD. revert a b n DD. refine (dims_cases _ _ _ _ _); intros; destruct multi; destruct v as [[lv vs]|];
  unfold ls_interp_result; prep; lrun; close_ltree.
Qed.
End Any.
