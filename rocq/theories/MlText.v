(** The texts of multilinear/fungen.py and mlinterp.py compute what InterpModel.v computes. *)
From Coq Require Import ZArith List Bool String Lia.
From Verif Require Import Base BaseFacts SplineModel InterpModel SpecInterp InterpProps PySyntax MlSem MlCps SrcFungen SrcMlinterp SpecMlText.
Import ListNotations.
Open Scope Z_scope.

Definition ml_program : list stmt := Eval vm_compute in
  match parse_text fungen_py, parse_text mlinterp_py with Some p, Some q => (p ++ q)%list | _, _ => [] end.
Lemma ml_parsed : ml_modules fungen_py mlinterp_py = Some ml_program.
Proof. vm_cast_no_check (eq_refl (Some ml_program)). Qed.
Lemma ml_text_eq {T} {NT : Num T} f vs : ml_text f vs = rcall std ml_program 60 f vs.
Proof. unfold ml_text, ml_in. now rewrite ml_parsed. Qed.

(** ** What the model computed. *)
Section Facts.
Context {T : Type} {NT : Num T}.
Open Scope num_scope.

Lemma inb_wrap sh idx : inb sh idx = true -> wrap_idx sh idx = idx.
Proof.
  unfold wrap_idx. revert idx. induction sh as [|n sh IH]; intros [|i idx]; cbn; try discriminate; auto.
  intros H. apply andb_prop in H as [H1 H2]. replace (i <? 0) with false by lia. f_equal. now apply IH.
Qed.
Lemma std_get_ok (a : arr T) idx v : aget a idx = Ok v -> std_get a idx = Ok v.
Proof. unfold aget, std_get. destruct (inb (ashape a) idx) eqn:I; [|destruct (_ =? _); discriminate]. intros H. rewrite inb_wrap by exact I. unfold aget. now rewrite I. Qed.
Lemma std_set_ok (a b : arr T) idx v : aset a idx v = Ok b -> std_set a idx v = Ok b.
Proof. unfold aset, std_set. destruct (inb (ashape a) idx) eqn:I; [|destruct (_ =? _); discriminate]. intros H. rewrite inb_wrap by exact I. unfold aset. now rewrite I. Qed.
Lemma axis_get m f gc i v : axis_of (AArr (mkArr [m] f)) (Nonunif gc) -> lget gc i = Ok v -> std_get (T := T) (mkArr [m] f) [i] = Ok v.
Proof.
  intros [S A] H. cbn in S. injection S as S. apply std_get_ok. unfold aget. cbn [ashape inb andb acell].
  unfold lget in H. destruct (i <? 0) eqn:L; [discriminate|]. destruct (nth_error gc (Z.to_nat i)) eqn:N; [|discriminate]. injection H as <-.
  assert (i < zlen gc) by (pose proof (proj1 (nth_error_Some gc (Z.to_nat i)) ltac:(congruence)); unfold zlen; lia).
  rewrite A in N by lia. injection N as <-. cbn. replace ((0 <=? i) && (i <? m) && true)%bool with true by lia. reflexivity.
Qed.
Lemma axis_cells m f gc : axis_of (AArr (mkArr [m] f)) (Nonunif gc) -> map (fun i => f [i] : T) (zrange m) = gc.
Proof.
  intros [S A]. cbn in S. injection S as ->. destruct gc as [|g0 gc]; [reflexivity|].
  rewrite <- (map_nth_zrange (g0 :: gc) g0) at 2. apply map_ext_in. intros i Hi. apply zrange_In in Hi.
  specialize (A i Hi). apply nth_error_nth with (d := g0) in A. now rewrite A.
Qed.
Lemma unif_facts a b n x i l : get_index (Unif a b n) x = Ok (i, l) -> exists dl q,
  divE (b -! a) (n_ofZ (n - 1)) = Ok dl /\ std_floordiv (x -! a) dl = Ok q /\ i = Z.min (n - 2) (Z.max 0 q) /\
  divE ((x -! a) -! n_ofZ i *! dl) dl = Ok l.
Proof.
  unfold get_index, std_floordiv, clamp. destruct (divE (b -! a) (n_ofZ (n - 1))) as [dl|]; [|discriminate]. cbn [bind].
  destruct (n_is0 dl) eqn:Z; [discriminate|].
  destruct (divE _ dl) as [lam|] eqn:D; [|discriminate]. cbn [bind]. intros [= <- <-]. exists dl, (n_floordiv (x -! a) dl). rewrite Z. auto.
Qed.
Lemma nonunif_facts m f gc x i l : axis_of (AArr (mkArr [m] f)) (Nonunif gc) -> get_index (Nonunif gc) x = Ok (i, l) -> exists g0 g1,
  std_get (mkArr [m] f) [i] = Ok g0 /\ std_get (mkArr [m] f) [i + 1] = Ok g1 /\ i = Z.min (m - 2) (Z.max 0 (std_search (mkArr [m] f) x - 1)) /\
  divE (x -! g0) (g1 -! g0) = Ok l.
Proof.
  intros A. unfold get_index, std_search, clamp. cbn [ashape hd acell]. rewrite (axis_cells m f gc A).
  assert (E : zlen gc = m) by (destruct A as [S _]; cbn in S; congruence). rewrite E.
  set (j := Z.min _ _). destruct (lget gc j) as [g0|] eqn:G0; [|discriminate]. cbn [bind]. destruct (lget gc (j + 1)) as [g1|] eqn:G1; [|discriminate]. cbn [bind].
  destruct (divE _ _) as [lam|] eqn:D; [|discriminate]. cbn [bind]. intros [= <- <-]. exists g0, g1.
  repeat split; auto; eapply axis_get; eauto.
Qed.
Lemma axis_len m (f : list Z -> T) gc : axis_of (AArr (mkArr [m] f)) (Nonunif gc) -> zlen gc = m.
Proof. intros [S _]. cbn in S. congruence. Qed.
End Facts.

(** ** Computing with unknown numbers. *)
(** Replaces a call by the tree of the operations it performs. *)
Ltac tree1 lem run :=
  let t := eval vm_compute in run in
  assert (lem : run = t) by (vm_cast_no_check (eq_refl t)).
Ltac call_tree :=
  match goal with |- rcallk (@std ?T ?NT) ml_program ?F ?n ?f ?args ?k = _ =>
    let E := fresh "E" in
    tree1 E (fun add sub mn mx num fadd fsub fmul fmin fmax div fdiv search get set zeros G =>
      rcallk (T := T) (B := rv T) (mkOps add sub mn mx num fadd fsub fmul fmin fmax div fdiv search get set zeros) ml_program G n f args (fun v => Ok v));
    apply (f_equal (fun g => g Z.add Z.sub Z.min Z.max (@n_ofZ T NT) (@n_add T NT) (@n_sub T NT) (@n_mul T NT) (@pymin T NT) (@pymax T NT) (@divE T NT)
      (@std_floordiv T NT) (@std_search T NT) (@std_get T) (@std_set T) (@azeros T NT) F)) in E;
    cbv beta in E; etransitivity; [exact E|]; clear E
  end.
Ltac inv_binds :=
  repeat match goal with
         | H : bind ?m _ = Ok _ |- _ => let E := fresh "B" in destruct m eqn:E; cbn [bind] in H; [|discriminate H]
         | H : (let '(_, _) := ?p in _) = Ok _ |- _ => let a := fresh in let b := fresh in destruct p as [a b]
         | H : Ok _ = Ok _ |- _ => injection H as H; subst
         end.
Ltac run_tree :=
  repeat (match goal with
          | |- match ?s with Ok _ => _ | Err _ => _ end = _ =>
              match goal with H : s = Ok _ |- _ => rewrite H end
          end; cbv beta iota).
