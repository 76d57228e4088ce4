(** Reading and writing array elements in the interpreter of PySem.v. *)
From Coq Require Import ZArith List Bool String Lia.
From Verif Require Import Base BaseFacts PySyntax PySem PySemFacts.
Import ListNotations.
Open Scope Z_scope.
Open Scope num_scope.

Section Elements.
Context {T : Type} {NT : Num T}.
Variable G : env T.
Variable call : string -> list (val T) -> list (string * val T) -> heap T -> res (val T * heap T).
Variable fuel : nat.
Notation eval := (eval G call).
Notation subs := (subs G call).
Notation assign := (assign G call).
Notation exec := (exec G call fuel).
Notation block := (block G call fuel).
Notation sim := (@sim T _).
Implicit Types (E : env T) (h : heap T) (a b : arr T).

Definition nonneg (zs : list Z) : Prop := Forall (fun z => 0 <= z) zs.
(** [x] is the view [w] of the array [a], at location [k] of the heap. *)
Definition holds E h (x : string) (k : nat) (w : list (option Z)) (a : arr T) : Prop :=
  E x = Some (PArr k w) /\ nth_error h k = Some (OF a).
Definition index E h (es : list expr) (zs : list Z) : Prop := subs E es h = Ok (map SIx zs, h) /\ nonneg zs.

Lemma all_ix_map zs : all_ix (map SIx zs) = Some zs.
Proof. induction zs; cbn; auto. now rewrite IHzs. Qed.
Lemma subscript_elem h k w a zs : nth_error h k = Some (OF a) -> nonneg zs -> List.length zs = List.length (vshape w (ashape a)) ->
  subscript h (PArr k w) (map SIx zs) = (v <- aget a (vmerge w zs) ;; Ok (PFlt v)).
Proof.
  intros Hk Hz Hl. cbn [subscript array_of]. rewrite (hget_nth _ _ _ Hk). cbn [bind oshape]. rewrite all_ix_map, Hl, Nat.eqb_refl, wraps_pos by auto.
  reflexivity.
Qed.
Lemma store_elem h k w a zs v : nth_error h k = Some (OF a) -> nonneg zs -> List.length zs = List.length (vshape w (ashape a)) ->
  store h (PArr k w) (map SIx zs) (PFlt v) = (a' <- aset a (vmerge w zs) v ;; Ok (hset h k (OF a'))).
Proof.
  intros Hk Hz Hl. cbn [store]. rewrite (hget_nth _ _ _ Hk). cbn [bind oshape]. rewrite all_ix_map, Hl, Nat.eqb_refl, wraps_pos by auto.
  cbn [oset]. destruct (aset a (vmerge w zs) v); reflexivity.
Qed.
Lemma vdims_arr h k w a : nth_error h k = Some (OF a) -> vdims h (PArr k w) = Ok (vshape w (ashape a)).
Proof. intros H. unfold vdims. cbn [array_of]. now rewrite (hget_nth _ _ _ H). Qed.
Lemma eval_sub E x es h v l : E x = Some v -> subs E es h = Ok (l, h) -> eval E (ESub (EName x) es) h = (r <- subscript h v l ;; Ok (r, h)).
Proof.
  intros Hx He. change (eval E (ESub (EName x) es) h)
    with ('(x, h) <- eval E (EName x) h ;; '(i, h) <- subs E es h ;; v <- subscript h x i ;; Ok (v, h)).
  cbn [PySem.eval]. rewrite (lookup_in G _ _ _ Hx). cbn [bind]. rewrite He. reflexivity.
Qed.
Lemma eval_elem E h x es zs k w a : holds E h x k w a -> index E h es zs -> List.length zs = List.length (vshape w (ashape a)) ->
  eval E (ESub (EName x) es) h = (v <- aget a (vmerge w zs) ;; Ok (PFlt v, h)).
Proof.
  intros [Hx Hk] [He Hz] Hl. rewrite (eval_sub _ _ _ _ _ _ Hx He), (subscript_elem _ _ _ a) by auto.
  destruct (aget a (vmerge w zs)); reflexivity.
Qed.
Lemma assign_elem E h x es zs k w a v : holds E h x k w a -> index E h es zs -> List.length zs = List.length (vshape w (ashape a)) ->
  assign E h (ESub (EName x) es) (PFlt v) = (a' <- aset a (vmerge w zs) v ;; Ok (E, hset h k (OF a'))).
Proof.
  intros [Hx Hk] [He Hz] Hl. cbn [PySem.assign PySem.eval]. rewrite (lookup_in G _ _ _ Hx). cbn [bind]. rewrite He. cbn [bind].
  rewrite (store_elem _ _ _ a) by auto. destruct (aset a (vmerge w zs) v); reflexivity.
Qed.
(** [x[es] = e] for an expression [e] that reads the state. *)
Lemma exec_elem E h x es zs k w a e (r : res T) : holds E h x k w a -> index E h es zs -> List.length zs = List.length (vshape w (ashape a)) ->
  eval E e h = (v <- r ;; Ok (PFlt v, h)) ->
  exec (SAssign [ESub (EName x) es] e) E h = (v <- r ;; a' <- aset a (vmerge w zs) v ;; Ok (Nxt, E, hset h k (OF a'))).
Proof.
  intros H1 H2 H3 He. cbn [PySem.exec]. rewrite He. destruct r as [v|]; [|reflexivity]. cbn [bind PySem.assign_all].
  rewrite (assign_elem _ _ _ _ _ _ _ _ _ H1 H2 H3). destruct (aset a (vmerge w zs) v); reflexivity.
Qed.
(** [x[es] o= e] *)
Lemma exec_aug E h o x es zs k w a e (r : res T) (f : T -> T -> res T) :
  holds E h x k w a -> index E h es zs -> List.length zs = List.length (vshape w (ashape a)) ->
  eval E e h = (v <- r ;; Ok (PFlt v, h)) ->
  (forall p q, arith o (PFlt p) (PFlt q) = (v <- f p q ;; Ok (PFlt v))) ->
  exec (SAug o (ESub (EName x) es) e) E h
  = (p <- aget a (vmerge w zs) ;; q <- r ;; v <- f p q ;; a' <- aset a (vmerge w zs) v ;; Ok (Nxt, E, hset h k (OF a'))).
Proof.
  intros H1 H2 H3 He Ho.
  change (exec (SAug o (ESub (EName x) es) e) E h) with
    ('(p, h) <- eval E (ESub (EName x) es) h ;; '(y, h) <- eval E e h ;; v <- binop h o p y ;;
      '(E, h) <- assign E h (ESub (EName x) es) v ;; Ok (@Nxt T, E, h)).
  rewrite (eval_elem _ _ _ _ _ _ _ _ H1 H2 H3).
  destruct (aget a (vmerge w zs)) as [p|]; [|reflexivity]. cbn [bind]. rewrite He. destruct r as [q|]; [|reflexivity]. cbn [bind].
  unfold binop. cbn [is_array]. rewrite Ho. destruct (f p q) as [v|]; [|reflexivity]. cbn [bind].
  rewrite (assign_elem _ _ _ _ _ _ _ _ _ H1 H2 H3). destruct (aset a (vmerge w zs) v); reflexivity.
Qed.
Lemma eval_bin_flt E h o e1 e2 (r1 r2 : res T) (f : T -> T -> res T) :
  eval E e1 h = (v <- r1 ;; Ok (PFlt v, h)) -> eval E e2 h = (v <- r2 ;; Ok (PFlt v, h)) ->
  (forall p q, arith o (PFlt p) (PFlt q) = (v <- f p q ;; Ok (PFlt v))) ->
  eval E (EBin o e1 e2) h = (v <- (p <- r1 ;; q <- r2 ;; f p q) ;; Ok (PFlt v, h)).
Proof.
  intros H1 H2 Ho. cbn [PySem.eval]. rewrite H1. destruct r1 as [p|]; [|reflexivity]. cbn [bind]. rewrite H2. destruct r2 as [q|]; [|reflexivity].
  cbn [bind]. unfold binop. cbn [is_array]. rewrite Ho. destruct (f p q); reflexivity.
Qed.
Lemma arith_sub p q : arith "-" (PFlt p) (PFlt q) = (v <- Ok (p -! q) ;; Ok (PFlt v)).
Proof. reflexivity. Qed.
Lemma arith_mul p q : arith "*" (PFlt p) (PFlt q) = (v <- Ok (p *! q) ;; Ok (PFlt v)).
Proof. reflexivity. Qed.
Lemma arith_div p q : arith "/" (PFlt p) (PFlt q) = (v <- divE p q ;; Ok (PFlt v)).
Proof. reflexivity. Qed.
End Elements.
