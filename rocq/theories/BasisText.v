(** The text of basis_splines.py computes what BasisModel.v computes. *)
From Coq Require Import ZArith List Bool String Lia.
From Verif Require Import Base BaseFacts SplineModel BasisModel PySyntax PySem SpecText PySemFacts SrcBasisSplines.
Import ListNotations.
Open Scope Z_scope.
Open Scope num_scope.

Definition basis_program : list stmt := Eval vm_compute in match parse_text basis_splines_py with Some p => p | None => [] end.
Lemma basis_text : parse_text basis_splines_py = Some basis_program.
Proof. vm_cast_no_check (eq_refl (Some basis_program)). Qed.

Section Text.
Context {T : Type} {NT : Num T}.
Definition GB : env T := globals basis_program.

(** The knots: a list or a vector. *)
Definition knots (h : heap T) (u : val T) (l : list T) : Prop :=
  forall z, subscript h u [SIx z] = (v <- pyget l z ;; Ok (PFlt v)).
Lemma knots_list h l : knots h (PTup (map PFlt l)) l.
Proof.
  intros z. cbn [subscript]. unfold pyget, wrap. unfold zlen. rewrite map_length.
  match goal with |- lget _ ?i = _ => generalize i end. intros i. unfold lget. destruct (i <? 0); auto.
  rewrite nth_error_map. destruct (nth_error l (Z.to_nat i)); auto.
Qed.
Lemma lget_aget (l : list T) z : aget (vecT l) [z] = lget l z.
Proof.
  unfold aget, lget, vecT. cbn [ashape acell hd]. change (zlen [z] =? zlen [zlen l]) with true. cbn [inb andb].
  rewrite andb_true_r. destruct (Z.ltb_spec z 0), (Z.leb_spec 0 z), (Z.ltb_spec z (zlen l)); try lia; cbn [andb]; auto.
  - rewrite (nth_error_nth' l (n_ofZ 0)) by (unfold zlen in *; lia). reflexivity.
  - rewrite (proj2 (nth_error_None l _)) by (unfold zlen in *; lia). reflexivity.
Qed.
Lemma knots_vec h k l : nth_error h k = Some (OF (vecT l)) -> knots h (PArr k []) l.
Proof.
  intros Hk z. cbn [subscript array_of]. unfold hget. rewrite Hk. cbn [bind oshape vecT ashape vshape all_ix List.length Nat.eqb vmerge wraps oget].
  fold (vecT l). rewrite lget_aget. unfold pyget, wrap. reflexivity.
Qed.

Section Body.
Variable G : env T.
Variable call : string -> list (val T) -> list (string * val T) -> heap T -> res (val T * heap T).
Variable fuel : nat.
Variable h : heap T.
Variable u : val T.
Variable l : list T.
Hypothesis Hu : knots h u l.

Definition def_of (f : string) := match find_def basis_program f with Some d => d | None => ([], []) end.

Lemma body_B0 i x : call_body G call fuel (fst (def_of "B0")) (snd (def_of "B0")) [u; PInt i; PFlt x] [] h
  = (v <- B0 l i x ;; Ok (PFlt v, h)).
Proof.
  cbn -[subscript literal]. rewrite Hu. unfold B0. destruct (pyget l i) as [a|]; cbn -[subscript literal]; auto.
  destruct (a <=?! x); cbn -[subscript literal]; auto.
  rewrite Hu. destruct (pyget l (i + 1)) as [b|]; cbn -[subscript literal]; auto.
  destruct (x <?! b); reflexivity.
Qed.

Lemma body_B p i x :
  (forall i, call "B0"%string [u; PInt i; PFlt x] [] h = (v <- B0 l i x ;; Ok (PFlt v, h))) ->
  (forall p' i, p = S p' -> call "B"%string [PInt (Z.of_nat p'); u; PInt i; PFlt x] [] h = (v <- B p' l i x ;; Ok (PFlt v, h))) ->
  call_body G call fuel (fst (def_of "B")) (snd (def_of "B")) [PInt (Z.of_nat p); u; PInt i; PFlt x] [] h
  = (v <- B p l i x ;; Ok (PFlt v, h)).
Proof.
  intros H0 HS. destruct p as [|p].
  - cbn -[subscript literal B0]. rewrite H0. destruct (B0 l i x); reflexivity.
  - assert (E : Z.of_nat (S p) - 1 = Z.of_nat p) by lia.
    assert (Q : (Z.of_nat (S p) =? 0) = false) by (apply Z.eqb_neq; lia).
    specialize (HS p). cbn [B]. set (q := Z.of_nat (S p)) in *. clearbody q.
    cbn -[subscript Z.add Z.sub Z.eqb B]. rewrite Q. cbn -[subscript Z.add Z.sub Z.eqb B].
    rewrite !Hu. destruct (pyget l i) as [a|] eqn:Ea; cbn -[subscript Z.add Z.sub B]; auto.
    rewrite !Hu. destruct (pyget l (i + q)) as [b|]; cbn -[subscript Z.add Z.sub B]; auto.
    rewrite !Hu, Ea. cbn -[subscript Z.add Z.sub B divE].
    destruct (divE (x -! a) (b -! a)) as [w1|]; cbn -[subscript Z.add Z.sub B divE]; auto.
    rewrite E, HS by auto. destruct (B p l i x) as [v1|]; cbn -[subscript Z.add Z.sub B divE]; auto.
    rewrite !Hu. destruct (pyget l (i + q + 1)) as [c|] eqn:Ec; cbn -[subscript Z.add Z.sub B divE]; auto.
    rewrite !Hu, Ec. cbn -[subscript Z.add Z.sub B divE].
    rewrite !Hu. destruct (pyget l (i + 1)) as [e|]; cbn -[subscript Z.add Z.sub B divE]; auto.
    destruct (divE (c -! x) (c -! e)) as [w2|]; cbn -[subscript Z.add Z.sub B divE]; auto.
    rewrite HS by auto. destruct (B p l (i + 1) x) as [v2|]; reflexivity.
Qed.
End Body.

Lemma run_text_basis n f vs ks (h : heap T) : run_text basis_splines_py n f vs ks h = run GB basis_program n f vs ks h.
Proof. unfold run_text, GB. rewrite basis_text. reflexivity. Qed.

Lemma text_B0 n h u l i x : knots h u l ->
  run_text basis_splines_py (S n) "B0" [u; PInt i; PFlt x] [] h = (v <- B0 l i x ;; Ok (PFlt v, h)).
Proof.
  intros Hu. rewrite run_text_basis. rewrite (run_def GB basis_program n "B0" (fst (def_of "B0")) (snd (def_of "B0"))) by reflexivity.
  now apply body_B0.
Qed.
(** Any degree; the depth of the recursion is p + 2. *)
Lemma text_B h u l x : knots h u l -> forall p n i, (p < n)%nat ->
  run_text basis_splines_py (S n) "B" [PInt (Z.of_nat p); u; PInt i; PFlt x] [] h = (v <- B p l i x ;; Ok (PFlt v, h)).
Proof.
  intros Hu. induction p as [|p IH]; intros n i Hn; rewrite run_text_basis;
    rewrite (run_def GB basis_program n "B" (fst (def_of "B")) (snd (def_of "B"))) by reflexivity;
    apply body_B; auto; (destruct n as [|n]; [lia|]).
  - intros j. rewrite <- run_text_basis. now apply text_B0.
  - discriminate.
  - intros j. rewrite <- run_text_basis. now apply text_B0.
  - intros p' j [= <-]. rewrite <- run_text_basis. apply IH. lia.
Qed.
End Text.
