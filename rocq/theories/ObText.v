(** The texts of the cubic spline classes compute what ObjectModel.v says: __init__, set_values, interpolate, __call__
    of CubicSpline. *)
From Coq Require Import ZArith List Bool String Lia.
From Verif Require Import Base SplineModel PrefilterModel ArrayModel CartesianModel GradModel ObjectModel SpecObject PySyntax ObSem SpecObText.
Import ListNotations.
Open Scope Z_scope.
Open Scope string_scope.

Definition get (o : option (list stmt)) := match o with Some l => l | None => [] end.
Definition PC := Eval vm_compute in get cubic_program.
Definition cc := Eval vm_compute in find_class PC "CubicSpline".
Definition cm := Eval vm_compute in find_class PC "CubicSplines".
Lemma cubic_program_is : cubic_program = Some PC. Proof. vm_compute. reflexivity. Qed.

Definition okret {T} (v : ov T) (w : state T) : state T * res (ov T) := (w, Ok v).
Lemma run_cs {T} {NT : Num T} junk m vs kws (w : state T) :
  run junk cubic_program "CubicSpline" m vs kws w = callm (np_ops junk) PC (loops (np_ops junk) PC cc 3) cc 100 m vs kws w okret.
Proof. unfold run. rewrite cubic_program_is. reflexivity. Qed.
Lemma run_mcs {T} {NT : Num T} junk m vs kws (w : state T) :
  run junk cubic_program "CubicSplines" m vs kws w = callm (np_ops junk) PC (loops (np_ops junk) PC cm 3) cm 100 m vs kws w okret.
Proof. unfold run. rewrite cubic_program_is. reflexivity. Qed.

(** Replaces a call by the tree of its operations. *)
Ltac tree :=
  match goal with
  | |- context [callm ?W ?P ?F ?c 100 ?m ?vs ?kws ?w ?k] =>
      match type of W with
      | ops ?T ?H =>
          match w with
          | (?h, ?att) =>
              let f := constr:(fun (W0 : ops T H) (F0 : nat -> list (string * ov T) -> @world T H -> string -> Z -> list stmt -> (ov T -> @world T H -> @ans T H) -> (list (string * ov T) -> @world T H -> @ans T H) -> @ans T H)
                                   (k0 : ov T -> @world T H -> @ans T H) (h0 : H) => callm W0 P F0 c 100 m vs kws (h0, att) k0) in
              let t := eval vm_compute in f in
              let E := fresh "E" in
              assert (E : f = t) by (vm_cast_no_check (eq_refl t));
              change (callm W P F c 100 m vs kws w k) with (f W F k h);
              rewrite E; clear E
          end
      end
  end;
  cbv beta iota delta [np_ops o_eqb].

Section Any.
Context {T : Type} {NT : Num T}.

(** Reading from a heap. *)
Lemma h_read0 (h : heap T) l : h_read h l [] = Ok (nd_arr (h_mem h l)). Proof. reflexivity. Qed.
Lemma h_read1 (h : heap T) l sh : h_read h l [sh] = areshape (nd_arr (h_mem h l)) sh.
Proof. unfold h_read; cbn. destruct (areshape _ _); reflexivity. Qed.
Lemma h_read2 (h : heap T) l s1 s2 : h_read h l [s1; s2] = bind (areshape (nd_arr (h_mem h l)) s1) (fun a => areshape a s2).
Proof. unfold h_read; cbn. destruct (areshape _ _); [cbn|reflexivity]. destruct (areshape _ _); reflexivity. Qed.
Lemma put_same (h : heap T) l v : h_put h l v l = v. Proof. unfold h_put. rewrite Nat.eqb_refl. reflexivity. Qed.
Lemma put_other (h : heap T) l v i : i <> l -> h_put h l v i = h_mem h i.
Proof. intros N. unfold h_put. destruct (Nat.eqb_spec i l); [congruence|reflexivity]. Qed.

Definition catt (a b : list T) (n : list Z) c tl : list (string * ov T) :=
  [("d", OI (zlen a)); ("a", OVec a); ("b", OVec b); ("orders", OIVec n); ("dtype", OS "float"); ("__coeffs__", c)] ++ tl.
(** The state of an object of CubicSpline and the caller's arrays, the first [k]. *)
Definition crel (k : nat) (m : memory T) (s : cubic T) (w : state T) : Prop :=
  (k <= h_next (fst w))%nat /\ (forall i, (i < k)%nat -> h_mem (fst w) i = m i) /\ dims (cs_a s) (cs_b s) (cs_orders s) /\
  exists c tl, snd w = catt (cs_a s) (cs_b s) (cs_orders s) c tl /\
    match cs_coeffs s with None => c = ONone | Some x => exists l, c = ORef l [] /\ (k <= l < h_next (fst w))%nat /\ nd_arr (h_mem (fst w) l) = x end /\
    match cs_values s with None => tl = [] | Some x => exists l vs, tl = [("__values__", ORef l vs)] /\ (k <= l < h_next (fst w))%nat /\ h_read (fst w) l vs = Ok x end.
Definition agree {A} (r : res (ov T)) (x : res A) : Prop := match x with Ok _ => r = Ok ONone | Err _ => exists e, r = Err e end.

Lemma dims_cases (Q : list T -> list T -> list Z -> Prop) :
  (forall a0 b0 n0, Q [a0] [b0] [n0]) -> (forall a0 a1 b0 b1 n0 n1, Q [a0; a1] [b0; b1] [n0; n1]) ->
  (forall a0 a1 a2 b0 b1 b2 n0 n1 n2, Q [a0; a1; a2] [b0; b1; b2] [n0; n1; n2]) ->
  (forall a0 a1 a2 a3 b0 b1 b2 b3 n0 n1 n2 n3, Q [a0; a1; a2; a3] [b0; b1; b2; b3] [n0; n1; n2; n3]) ->
  forall a b n, dims a b n -> Q a b n.
Proof.
  intros H1 H2 H3 H4 a b n [L [Lb Ln]].
  destruct a as [|a0 [|a1 [|a2 [|a3 [|a4 a]]]]]; cbn in L; try lia;
  destruct b as [|b0 [|b1 [|b2 [|b3 [|b4 b]]]]]; cbn in Lb; try lia;
  destruct n as [|n0 [|n1 [|n2 [|n3 [|n4 n]]]]]; cbn in Ln; try lia; auto.
Qed.


Lemma filter_data_some (dinv : list T) x : (1 <= List.length dinv <= 4)%nat -> filter_data dinv x <> Ok None.
Proof.
  intros L. unfold filter_data. unfold zlen.
  destruct dinv as [|? [|? [|? [|? [|]]]]]; cbn in L; try lia; cbn [List.length]; cbn -[filter_passes_old];
  (match goal with |- context [negb ?b] => destruct b end; cbn -[filter_passes_old]; [|discriminate]);
  match goal with |- context [filter_passes_old ?a ?b ?c ?d ?e] => destruct (filter_passes_old a b c d e) end; discriminate.
Qed.

Definition h_alloc (h : heap T) (p : bool) (x : arr T) : heap T := mkHeap (S (h_next h)) (h_put h (h_next h) (mkNd p x)).

Definition h_store (h : heap T) (l : nat) (x : arr T) : heap T := mkHeap (h_next h) (h_put h l (mkNd (nd_plain (h_mem h l)) x)).
Fixpoint g3 (a b : list T) (n : list Z) : list (gdim T) :=
  match a, b, n with x :: a, y :: b, z :: n => Unif x y z :: g3 a b n | _, _, _ => [] end.
Lemma obj_grid_is a b n : dims a b n -> obj_grid a b n = Ok (g3 a b n).
Proof. revert a b n. refine (dims_cases _ _ _ _ _); intros; reflexivity. Qed.
Definition ret_py (w : state T) (v : pyval T) : state T * res (ov T) :=
  match v with
  | VNone => (w, Ok ONone) | VNum x => (w, Ok (OF x)) | VTuple l => (w, Ok (OL (map OF l)))
  | VArr x => ((h_alloc (fst w) true x, snd w), Ok (ORef (h_next (fst w)) []))
  end.
Definition cubic_at g (h : heap T) (c : ov T) p o : res (pyval T * option (arr T)) :=
  match c with ORef l [] => eval_cubic g (nd_arr (h_mem h l)) p o None | _ => Err TypeErr end.
Definition cs_rows_result junk (h : heap T) a b n c tl N D f (v : option nat) : state T * res (ov T) :=
  let p := mkArr [N; D] f in
  if negb (all_finite p) then ((h, catt a b n c tl), Err ValueErr)
  else if (D =? zlen a)%Z then
    let h1 := match v with None => h_alloc h true (mkArr [N] junk) | Some _ => h end in
    let lo := match v with None => h_next h | Some lo => lo end in
    match cubic_at (g3 a b n) h1 c (P2 p) (Some (nd_arr (h_mem h1 lo))) with
    | Err e => ((h1, catt a b n c tl), Err e)
    | Ok r => match snd r with Some o => ((h_store h1 lo o, catt a b n c tl), Ok (ORef lo [])) | None => ((h1, catt a b n c tl), Err TypeErr) end
    end
  else ((h, catt a b n c tl), Err AssertErr).
Definition cs_point_result (h : heap T) a b n c tl x : state T * res (ov T) :=
  if negb (forallb n_finite x) then ((h, catt a b n c tl), Err ValueErr)
  else match cubic_at (g3 a b n) h c (P1 x) None with
       | Err e => ((h, catt a b n c tl), Err e)
       | Ok r => ret_py (h, catt a b n c tl) (fst r)
       end.
Definition coef_ref (c : ov T) : Prop := c = ONone \/ exists l, c = ORef l [].
Definition tail_ok (tl : list (string * ov T)) : Prop := tl = [] \/ exists v, tl = [("__values__", v)].

End Any.

Ltac heap_simpl := rewrite ?h_read0, ?h_read1, ?h_read2; cbn [h_mem h_next]; rewrite ?put_same; cbn [nd_plain nd_arr Z.eqb Pos.eqb].

Ltac tail_cases := match goal with H : tail_ok _ |- _ => destruct H as [->|[?v ->]] end.
Ltac coef_cases := match goal with H : coef_ref _ |- _ => destruct H as [->|[?l ->]] end.
Ltac zlens :=
  repeat match goal with |- context [@zlen ?A (?x :: ?l)%list] => let v := eval vm_compute in (@zlen A (x :: l)%list) in change (@zlen A (x :: l)%list) with v end.
Ltac tree_ex :=
  match goal with
  | |- context [ex ?W ?P ?F ?c ?fu ?E ?w ?b ?r ?k] =>
      match type of W with
      | ops ?T ?H =>
          match w with
          | (?h, ?att) =>
              let f := constr:(fun (W0 : ops T H) (F0 : nat -> list (string * ov T) -> @world T H -> string -> Z -> list stmt -> (ov T -> @world T H -> @ans T H) -> (list (string * ov T) -> @world T H -> @ans T H) -> @ans T H)
                                   (r0 : ov T -> @world T H -> @ans T H) (k0 : list (string * ov T) -> @world T H -> @ans T H) (h0 : H) => ex W0 P F0 c fu E (h0, att) b r0 k0) in
              let t := eval vm_compute in f in
              let En := fresh "En" in
              assert (En : f = t) by (vm_cast_no_check (eq_refl t));
              change (ex W P F c fu E w b r k) with (f W F r k h);
              rewrite En; clear En
          end
      end
  end;
  cbv beta iota delta [np_ops o_eqb].
Ltac start_tree lem := rewrite lem; unfold catt; cbn [app]; zlens; tree; cbn [Z.eqb Pos.eqb]; heap_simpl.

