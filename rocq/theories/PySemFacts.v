(** General facts about the interpreter of PySem.v. *)
From Coq Require Import ZArith List Bool String Lia.
From Verif Require Import Base BaseFacts SplineModel PySyntax PySem.
Import ListNotations.
Open Scope Z_scope.
Open Scope num_scope.

Section Facts.
Context {T : Type} {NT : Num T}.
Implicit Types E : env T.
Implicit Types h : heap T.

Lemma upd_same E x v : upd E x v x = Some v.
Proof. unfold upd. now rewrite String.eqb_refl. Qed.
Lemma upd_other E x v y : y <> x -> upd E x v y = E y.
Proof. intros H. unfold upd. destruct (String.eqb_spec y x); congruence. Qed.

Lemma wrap_pos n z : 0 <= z -> wrap n z = z.
Proof. intros H. unfold wrap. destruct (Z.ltb_spec z 0); auto; lia. Qed.
Lemma wraps_pos idx : forall sh, Forall (fun z => 0 <= z) idx -> wraps sh idx = idx.
Proof.
  induction idx as [|z idx IH]; intros [|n sh] H; cbn; auto. inversion H; subst.
  now rewrite wrap_pos, IH.
Qed.
Lemma vshape_nil sh : vshape [] sh = sh.
Proof. destruct sh; auto. Qed.

Variable G : env T.
Variable call : string -> list (val T) -> list (string * val T) -> heap T -> res (val T * heap T).
Variable fuel : nat.
Notation eval := (eval G call).
Notation exec := (exec G call fuel).
Notation block := (block G call fuel).
Notation lookup := (lookup G).

Lemma lookup_in E x v : E x = Some v -> lookup E x = Ok v.
Proof. intros H. unfold PySem.lookup. now rewrite H. Qed.

Lemma exec_set E h x e : exec (SAssign [EName x] e) E h = ('(v, h) <- eval E e h ;; Ok (Nxt, upd E x v, h)).
Proof. cbn [PySem.exec]. destruct (eval E e h) as [[v h']|]; auto. Qed.

(** Argument lists. *)
Lemma evals_nil E h : evals G call E [] h = Ok ([], h).
Proof. reflexivity. Qed.
Lemma evals_cons E a r h v h' : eval E a h = Ok (v, h') ->
  evals G call E (a :: r) h = ('(vs, h) <- evals G call E r h' ;; Ok (v :: vs, h)).
Proof. intros H. destruct a; try discriminate H; cbn [evals]; rewrite H; reflexivity. Qed.
Lemma evals_cons_err E a r h e : eval E a h = Err e -> (forall b, a <> EStar b) -> evals G call E (a :: r) h = Err e.
Proof. intros H Ha. destruct a; try (cbn [evals]; rewrite H; reflexivity). now destruct (Ha a). Qed.
Lemma eval_call E s args h : s <> "isinstance"%string ->
  eval E (ECall (EName s) args []) h =
  ('(vs, h) <- evals G call E args h ;; match builtin s vs h with Some r => r | None => call s vs [] h end).
Proof.
  intros Hs. cbn [PySem.eval callee literal_test]. destruct (String.eqb_spec s "isinstance"); [easy|].
  fold (evals G call E). destruct (evals G call E args h) as [[vs h']|]; reflexivity.
Qed.

Lemma eval_list E l h : eval E (EList l) h = ('(vs, h) <- evals G call E l h ;; Ok (PTup vs, h)).
Proof. reflexivity. Qed.
Lemma eval_tup E l h : eval E (ETup l) h = ('(vs, h) <- evals G call E l h ;; Ok (PTup vs, h)).
Proof. reflexivity. Qed.

Lemma block_nil E h : block [] E h = Ok (Nxt, E, h).
Proof. reflexivity. Qed.
Lemma block_cons s l E h : block (s :: l) E h =
  ('(g, E, h) <- exec s E h ;; match g with Nxt => block l E h | _ => Ok (g, E, h) end).
Proof. reflexivity. Qed.
Lemma block_app l1 l2 : forall E h, block (l1 ++ l2) E h =
  ('(g, E, h) <- block l1 E h ;; match g with Nxt => block l2 E h | _ => Ok (g, E, h) end).
Proof.
  induction l1 as [|s l1 IH]; intros E h; auto. cbn [app]. rewrite !block_cons.
  destruct (exec s E h) as [[[g E'] h']|]; auto. cbn [bind]. destruct g; auto.
Qed.

(** An execution without [return] follows a computation of the hand-written model. *)
Definition sim {S} (r : res S) (x : res (state T)) (R : S -> env T -> heap T -> Prop) : Prop :=
  match r with
  | Ok s => exists E h, x = Ok (Nxt, E, h) /\ R s E h
  | Err e => x = Err e
  end.

Lemma sim_bind {S S'} (r : res S) (f : S -> res S') (x : res (state T)) (k : env T -> heap T -> res (state T)) R R' :
  sim r x R -> (forall s E h, R s E h -> sim (f s) (k E h) R') ->
  sim (s <- r ;; f s) ('(g, E, h) <- x ;; match g with Nxt => k E h | _ => Ok (g, E, h) end) R'.
Proof.
  intros H1 H2. destruct r as [s|e]; cbn in *.
  - destruct H1 as (E & h & -> & H). cbn. auto.
  - now rewrite H1.
Qed.
Lemma sim_app {S S'} (r : res S) (f : S -> res S') l1 l2 E h R R' :
  sim r (block l1 E h) R -> (forall s E h, R s E h -> sim (f s) (block l2 E h) R') ->
  sim (s <- r ;; f s) (block (l1 ++ l2) E h) R'.
Proof. intros H1 H2. rewrite block_app. apply sim_bind with (R := R); auto. Qed.
Lemma sim_cons {S S'} (r : res S) (f : S -> res S') s l E h R R' :
  sim r (exec s E h) R -> (forall s E h, R s E h -> sim (f s) (block l E h) R') ->
  sim (s <- r ;; f s) (block (s :: l) E h) R'.
Proof. intros H1 H2. rewrite block_cons. apply sim_bind with (R := R); auto. Qed.
(** A statement, or a block, that cannot fail. *)
Lemma sim_app1 {S'} (f : res S') l1 l2 E h (R : env T -> heap T -> Prop) R' :
  sim (Ok tt) (block l1 E h) (fun _ => R) -> (forall E h, R E h -> sim f (block l2 E h) R') ->
  sim f (block (l1 ++ l2) E h) R'.
Proof. intros H1 H2. exact (sim_app (Ok tt) (fun _ => f) _ _ _ _ _ _ H1 (fun _ => H2)). Qed.
Lemma sim_set {S'} (r : res (val T)) (f : val T -> res S') x e l E h R' :
  eval E e h = (v <- r ;; Ok (v, h)) ->
  (forall v, r = Ok v -> sim (f v) (block l (upd E x v) h) R') ->
  sim (v <- r ;; f v) (block (SAssign [EName x] e :: l) E h) R'.
Proof.
  intros H1 H2. rewrite block_cons, exec_set, H1. destruct r as [v|er]; cbn [bind]; [|reflexivity].
  apply H2; auto.
Qed.
Lemma sim_end {S} (s : S) E h (R : S -> env T -> heap T -> Prop) : R s E h -> sim (Ok s) (block [] E h) R.
Proof. cbn. eauto. Qed.
Lemma sim_weak {S} (r : res S) x (R R' : S -> env T -> heap T -> Prop) :
  sim r x R -> (forall s E h, R s E h -> R' s E h) -> sim r x R'.
Proof. destruct r; cbn; auto. intros (E & h & -> & H) W. eauto. Qed.
Lemma sim_one {S} (r : res S) s E h R : sim r (exec s E h) R -> sim r (block [s] E h) R.
Proof.
  intros H. rewrite block_cons. destruct r as [a|e]; cbn in *; [|now rewrite H].
  destruct H as (E' & h' & -> & H). cbn. eauto.
Qed.

Lemma sim_iterate {S A} (f : S -> A -> res S) (inj : A -> val T) (R : S -> env T -> heap T -> Prop) body l :
  (forall s a E h, In a l -> R s E h -> sim (f s a) (body (inj a) E h) R) ->
  forall s E h, R s E h -> sim (foldM f l s) (iterate body (map inj l) E h) R.
Proof.
  induction l as [|a l IH]; intros HB s E h H; cbn [map iterate foldM].
  - cbn. eauto.
  - pose proof (HB s a E h (or_introl eq_refl) H) as H1. destruct (f s a) as [s'|e]; cbn [bind] in *; cbn [sim] in *.
    + destruct H1 as (E' & h' & -> & H'). cbn [bind]. apply IH; auto. intros; apply HB; auto. now right.
    + now rewrite H1.
Qed.

(** [for x in range(n)] *)
Lemma sim_range {S} (f : S -> Z -> res S) (R : S -> env T -> heap T -> Prop) x n N b E h s :
  lookup E n = Ok (PInt N) ->
  (forall s i E h, 0 <= i < N -> R s E h -> sim (f s i) (block b (upd E x (PInt i)) h) R) ->
  R s E h ->
  sim (foldM f (zrange N) s) (exec (SFor (EName x) (ECall (EName "range") [EName n] []) b) E h) R.
Proof.
  intros HN HB H. cbn [PySem.exec]. fold block. cbn [PySem.eval callee]. rewrite HN. cbn -[zrange].
  apply sim_iterate; auto. intros. apply HB; auto. apply zrange_In; auto.
Qed.

End Facts.

(** ** Heaps *)
Section Heaps.
Context {T : Type} {NT : Num T}.
Implicit Types h : heap T.
Lemma hset_app h h' o o' : hset (h ++ o :: h') (List.length h) o' = h ++ o' :: h'.
Proof. induction h as [|a h IH]; cbn; auto. now rewrite IH. Qed.
Lemma hset_app1 h h' : forall l o, (l < List.length h)%nat -> hset (h ++ h') l o = hset h l o ++ h'.
Proof. induction h as [|a h IH]; intros [|l] o H; cbn in *; try lia; auto. rewrite IH by lia. auto. Qed.
Lemma nth_new h h' (o : obj T) : nth_error (h ++ o :: h') (List.length h) = Some o.
Proof. rewrite nth_error_app2, Nat.sub_diag by lia. reflexivity. Qed.
Lemma hset_length h : forall l o, List.length (hset h l o) = List.length h.
Proof. induction h as [|a h IH]; intros [|l] o; cbn; auto. Qed.
Lemma nth_hset_same h : forall l o, (l < List.length h)%nat -> nth_error (hset h l o) l = Some o.
Proof. induction h as [|a h IH]; intros [|l] o H; cbn in *; try lia; auto. apply IH. lia. Qed.
Lemma nth_hset_other h : forall l k o, l <> k -> nth_error (hset h l o) k = nth_error h k.
Proof. induction h as [|a h IH]; intros [|l] [|k] o H; cbn; auto; try lia. Qed.
Lemma hset_hset h : forall l o o', hset (hset h l o) l o' = hset h l o'.
Proof. induction h as [|a h IH]; intros [|l] o o'; cbn; auto. now rewrite IH. Qed.
Lemma hset_comm h : forall l k o o', l <> k -> hset (hset h l o) k o' = hset (hset h k o') l o.
Proof. induction h as [|a h IH]; intros [|l] [|k] o o' H; cbn; auto; try lia. rewrite IH; auto. Qed.
Lemma hset_same h : forall l o, nth_error h l = Some o -> hset h l o = h.
Proof. induction h as [|a h IH]; intros [|l] o H; cbn in *; auto; try congruence. now rewrite IH. Qed.
Lemma hget_nth h l o : nth_error h l = Some o -> hget h l = Ok o.
Proof. unfold hget. now intros ->. Qed.
End Heaps.

(** ** Calls *)
Section Calls.
Context {T : Type} {NT : Num T}.
Lemma run_def (G : env T) p n f ps b vs ks h : overloads p f = [] -> find_def p f = Some (ps, b) ->
  run G p (S n) f vs ks h = call_body G (run G p n) n ps b vs ks h.
Proof. intros H1 H2. cbn [run]. now rewrite H1, H2. Qed.
End Calls.

(** ** Module constants *)
Section Top.
Context {T : Type} {NT : Num T}.
Implicit Types E : env T.
Implicit Types h : heap T.
Lemma toplevel_app p q : forall E h, toplevel (p ++ q) E h = (let '(E, h) := toplevel p E h in toplevel q E h).
Proof.
  induction p as [|s p IH]; intros E h; auto. cbn [app toplevel]. destruct (is_def s); auto.
  destruct (exec _ _ _ _ _ _) as [[[g E'] h']|]; auto.
Qed.
Lemma toplevel_defs p : forallb is_def p = true -> forall E h, toplevel p E h = (E, h).
Proof.
  induction p as [|s p IH]; intros H E h; auto. cbn [toplevel]. cbn [forallb] in H. apply andb_prop in H as [H1 H2].
  rewrite H1. auto.
Qed.
Lemma toplevel_block p : forallb (fun s => negb (is_def s)) p = true ->
  forall E h E' h', block empty (fun _ _ _ _ => Err NameErr) 0 p E h = Ok (Nxt, E', h') -> toplevel p E h = (E', h').
Proof.
  induction p as [|s p IH]; intros H E h E' h' B.
  - cbn in B |- *. congruence.
  - cbn [forallb] in H. apply andb_prop in H as [H1 H2]. rewrite block_cons in B. cbn [toplevel].
    destruct (is_def s); [discriminate|].
    destruct (exec _ _ _ _ _ _) as [[[g E1] h1]|]; cbn [bind] in B; [|discriminate].
    destruct g; try discriminate. now apply IH.
Qed.
End Top.
