(** Boolean equality of syntax trees and its correctness. *)
From Coq Require Import ZArith List Bool String.
From Verif Require Import PySyntax.
Import ListNotations.

Section ExprInd.
Variable P : expr -> Prop.
Definition Popt (o : option expr) : Prop := match o with Some e => P e | None => True end.
Hypothesis H : forall e,
  match e with
  | EBin _ a b | EAnd a b | EOr a b => P a /\ P b
  | ENeg a | ENot a | EStar a | EYield a | EAttr a _ | ELam _ a => P a
  | ECmp a l => P a /\ Forall (fun p => P (snd p)) l
  | EIfE a b c => P a /\ P b /\ P c
  | ECall f l k => P f /\ Forall P l /\ Forall (fun p => P (snd p)) k
  | ESub a l => P a /\ Forall P l
  | ESlice a b c => Popt a /\ Popt b /\ Popt c
  | ETup l | EList l => Forall P l
  | EDict l => Forall (fun p => P (fst p) /\ P (snd p)) l
  | EComp a b c d => P a /\ P b /\ P c /\ Popt d
  | _ => True
  end -> P e.
Fixpoint expr_ind' (e : expr) : P e.
Proof.
  apply H. destruct e; auto.
  - split; [apply expr_ind'|]. induction l as [|[? ?]]; constructor; auto.
  - split; [apply expr_ind'|]. split.
    + induction args; constructor; auto.
    + induction kws as [|[? ?]]; constructor; auto.
  - split; [apply expr_ind'|]. induction l; constructor; auto.
  - repeat split; match goal with |- Popt ?o => destruct o; simpl; auto end.
  - induction l; constructor; auto.
  - induction l; constructor; auto.
  - induction l as [|[? ?]]; constructor; auto.
  - repeat split; auto. destruct c; simpl; auto.
Defined.
End ExprInd.

Definition opt_eqb {A} (f : A -> A -> bool) (x y : option A) : bool :=
  match x, y with Some a, Some b => f a b | None, None => true | _, _ => false end.

Fixpoint expr_eqb (x y : expr) {struct x} : bool :=
  let lst := fix lst (l m : list expr) : bool :=
    match l, m with [], [] => true | a :: l, b :: m => expr_eqb a b && lst l m | _, _ => false end in
  let kws := fix kws (l m : list (string * expr)) : bool :=
    match l, m with
    | [], [] => true
    | (s, a) :: l, (t, b) :: m => String.eqb s t && expr_eqb a b && kws l m
    | _, _ => false
    end in
  let dic := fix dic (l m : list (expr * expr)) : bool :=
    match l, m with
    | [], [] => true
    | (s, a) :: l, (t, b) :: m => expr_eqb s t && expr_eqb a b && dic l m
    | _, _ => false
    end in
  let opt (a b : option expr) : bool :=
    match a, b with Some a, Some b => expr_eqb a b | None, None => true | _, _ => false end in
  match x, y with
  | EName s, EName t => String.eqb s t
  | EInt a, EInt b => Z.eqb a b
  | EFlt a b, EFlt c d => Z.eqb a c && Z.eqb b d
  | EStr s, EStr t => String.eqb s t
  | EFStr s, EFStr t => String.eqb s t
  | ENone, ENone | ETrue, ETrue | EFalse, EFalse | EEllipsis, EEllipsis => true
  | EBin o a b, EBin o' a' b' => String.eqb o o' && expr_eqb a a' && expr_eqb b b'
  | ENeg a, ENeg b => expr_eqb a b
  | ENot a, ENot b => expr_eqb a b
  | ECmp a l, ECmp b m => expr_eqb a b && kws l m
  | EAnd a b, EAnd a' b' => expr_eqb a a' && expr_eqb b b'
  | EOr a b, EOr a' b' => expr_eqb a a' && expr_eqb b b'
  | EIfE a b c, EIfE a' b' c' => expr_eqb a a' && expr_eqb b b' && expr_eqb c c'
  | ECall f l k, ECall f' l' k' => expr_eqb f f' && lst l l' && kws k k'
  | EAttr a s, EAttr b t => expr_eqb a b && String.eqb s t
  | ESub a l, ESub b m => expr_eqb a b && lst l m
  | ESlice a b c, ESlice a' b' c' => opt a a' && opt b b' && opt c c'
  | ETup l, ETup m => lst l m
  | EList l, EList m => lst l m
  | EDict l, EDict m => dic l m
  | EComp a b c d, EComp a' b' c' d' => expr_eqb a a' && expr_eqb b b' && expr_eqb c c' && opt d d'
  | ELam l a, ELam m b => (if list_eq_dec string_dec l m then true else false) && expr_eqb a b
  | EStar a, EStar b => expr_eqb a b
  | EYield a, EYield b => expr_eqb a b
  | _, _ => false
  end.

Lemma expr_eqb_ok : forall x y, expr_eqb x y = true -> x = y.
Proof.
  assert (L : forall l, Forall (fun x => forall y, expr_eqb x y = true -> x = y) l -> forall m,
    (fix lst (l m : list expr) : bool :=
    match l, m with [], [] => true | a :: l, b :: m => expr_eqb a b && lst l m | _, _ => false end) l m = true -> l = m).
  { induction 1 as [|a l Ha Hl IH]; intros [|b m] E; try discriminate; auto.
    apply andb_prop in E as [E1 E2]. rewrite (Ha _ E1), (IH _ E2). auto. }
  assert (K : forall l, Forall (fun p => forall y, expr_eqb (snd p) y = true -> snd p = y) l -> forall m,
    (fix kws (l m : list (string * expr)) : bool :=
    match l, m with
    | [], [] => true
    | (s, a) :: l, (t, b) :: m => String.eqb s t && expr_eqb a b && kws l m
    | _, _ => false
    end) l m = true -> l = m).
  { induction 1 as [|[s a] l Ha Hl IH]; intros [|[t b] m] E; try discriminate; auto.
    apply andb_prop in E as [E E2]. apply andb_prop in E as [E0 E1].
    apply String.eqb_eq in E0. apply Ha in E1. apply IH in E2. simpl in E1. congruence. }
  assert (D : forall l, Forall (fun p => (forall y, expr_eqb (fst p) y = true -> fst p = y) /\ (forall y, expr_eqb (snd p) y = true -> snd p = y)) l -> forall m,
    (fix dic (l m : list (expr * expr)) : bool :=
    match l, m with
    | [], [] => true
    | (s, a) :: l, (t, b) :: m => expr_eqb s t && expr_eqb a b && dic l m
    | _, _ => false
    end) l m = true -> l = m).
  { induction 1 as [|[s a] l [Hs Ha] Hl IH]; intros [|[t b] m] E; try discriminate; auto.
    apply andb_prop in E as [E E2]. apply andb_prop in E as [E0 E1].
    apply Hs in E0. apply Ha in E1. apply IH in E2. simpl in *. congruence. }
  assert (O : forall o, Popt (fun x => forall y, expr_eqb x y = true -> x = y) o -> forall p,
    match o, p with Some a, Some b => expr_eqb a b | None, None => true | _, _ => false end = true -> o = p).
  { intros [a|] Ha [b|] E; try discriminate; auto. rewrite (Ha _ E). auto. }
  apply (expr_ind' (fun x => forall y, expr_eqb x y = true -> x = y)).
  intros e He y E.
  destruct e; destruct y; try discriminate E; cbn [expr_eqb] in E;
    repeat match goal with X : _ && _ = true |- _ => apply andb_prop in X as [? ?] end;
    repeat match goal with
    | X : _ /\ _ |- _ => destruct X
    | X : String.eqb _ _ = true |- _ => apply String.eqb_eq in X; subst
    | X : Z.eqb _ _ = true |- _ => apply Z.eqb_eq in X; subst
    | Hx : forall y, expr_eqb ?a y = true -> ?a = y, X : expr_eqb ?a ?b = true |- _ => apply Hx in X; subst
    | X : _ = true |- _ => apply L in X; [subst|assumption]
    | X : _ = true |- _ => apply K in X; [subst|assumption]
    | X : _ = true |- _ => apply D in X; [subst|assumption]
    | X : _ = true |- _ => apply O in X; [subst|assumption]
    end; auto.
  destruct (list_eq_dec string_dec ps ps0); [subst; auto|discriminate].
Qed.

Section StmtInd.
Variable P : stmt -> Prop.
Hypothesis H : forall s,
  match s with
  | SIf _ a b | STry a b => Forall P a /\ Forall P b
  | SFor _ _ a | SWhile _ a | SDef _ _ a | SClass _ a => Forall P a
  | SDeco _ s => P s
  | _ => True
  end -> P s.
Fixpoint stmt_ind' (s : stmt) : P s.
Proof.
  apply H. destruct s; auto.
  - split; [induction b1|induction b2]; constructor; auto.
  - induction b; constructor; auto.
  - induction b; constructor; auto.
  - split; [induction b|induction h]; constructor; auto.
  - induction body; constructor; auto.
  - induction body; constructor; auto.
Defined.
End StmtInd.

Fixpoint list_eqb {A} (f : A -> A -> bool) (l m : list A) : bool :=
  match l, m with [], [] => true | a :: l, b :: m => f a b && list_eqb f l m | _, _ => false end.
Lemma list_eqb_ok {A} (f : A -> A -> bool) l : Forall (fun x => forall y, f x y = true -> x = y) l ->
  forall m, list_eqb f l m = true -> l = m.
Proof.
  induction 1 as [|a l Ha Hl IH]; intros [|b m] E; try discriminate; auto.
  apply andb_prop in E as [E1 E2]. rewrite (Ha _ E1), (IH _ E2). auto.
Qed.
Lemma opt_eqb_ok {A} (f : A -> A -> bool) x y : (forall x y, f x y = true -> x = y) -> opt_eqb f x y = true -> x = y.
Proof. intros Hf; destruct x, y; simpl; intros E; try discriminate; auto. rewrite (Hf _ _ E); auto. Qed.
Definition param_eqb (p q : string * option expr) : bool :=
  String.eqb (fst p) (fst q) && opt_eqb expr_eqb (snd p) (snd q).

Fixpoint stmt_eqb (x y : stmt) {struct x} : bool :=
  let lst := fix lst (l m : list stmt) : bool :=
    match l, m with [], [] => true | a :: l, b :: m => stmt_eqb a b && lst l m | _, _ => false end in
  match x, y with
  | SAssign l e, SAssign m f => list_eqb expr_eqb l m && expr_eqb e f
  | SAug o t e, SAug o' t' e' => String.eqb o o' && expr_eqb t t' && expr_eqb e e'
  | SExpr e, SExpr f => expr_eqb e f
  | SIf c a b, SIf c' a' b' => expr_eqb c c' && lst a a' && lst b b'
  | SFor t i b, SFor t' i' b' => expr_eqb t t' && expr_eqb i i' && lst b b'
  | SWhile c b, SWhile c' b' => expr_eqb c c' && lst b b'
  | SRet e, SRet f => opt_eqb expr_eqb e f
  | SPass, SPass | SBreak, SBreak | SContinue, SContinue | SImport, SImport => true
  | SRaise e, SRaise f => opt_eqb expr_eqb e f
  | SAssert e, SAssert f => expr_eqb e f
  | STry a b, STry a' b' => lst a a' && lst b b'
  | SDef f ps b, SDef f' ps' b' => String.eqb f f' && list_eqb param_eqb ps ps' && lst b b'
  | SClass f b, SClass f' b' => String.eqb f f' && lst b b'
  | SDeco e s, SDeco f t => expr_eqb e f && stmt_eqb s t
  | _, _ => false
  end.

Lemma stmt_eqb_ok : forall x y, stmt_eqb x y = true -> x = y.
Proof.
  assert (L : forall l, Forall (fun x => forall y, stmt_eqb x y = true -> x = y) l -> forall m,
    (fix lst (l m : list stmt) : bool :=
    match l, m with [], [] => true | a :: l, b :: m => stmt_eqb a b && lst l m | _, _ => false end) l m = true -> l = m).
  { induction 1 as [|a l Ha Hl IH]; intros [|b m] E; try discriminate; auto.
    apply andb_prop in E as [E1 E2]. rewrite (Ha _ E1), (IH _ E2). auto. }
  assert (X : forall l : list expr, Forall (fun x => forall y, expr_eqb x y = true -> x = y) l)
    by (intros; apply Forall_forall; intros; apply expr_eqb_ok; auto).
  assert (Q : forall l : list (string * option expr), Forall (fun x => forall y, param_eqb x y = true -> x = y) l).
  { intros; apply Forall_forall; intros [s d] _ [s' d'] E. apply andb_prop in E as [E1 E2]. simpl in *.
    apply String.eqb_eq in E1. apply (opt_eqb_ok _ _ _ expr_eqb_ok) in E2. congruence. }
  apply (stmt_ind' (fun x => forall y, stmt_eqb x y = true -> x = y)).
  intros s Hs y E.
  destruct s; destruct y; try discriminate E; cbn [stmt_eqb] in E;
    repeat match goal with X : _ && _ = true |- _ => apply andb_prop in X as [? ?] end;
    repeat match goal with
    | X : _ /\ _ |- _ => destruct X
    | X : String.eqb _ _ = true |- _ => apply String.eqb_eq in X; subst
    | X : expr_eqb ?a ?b = true |- _ => apply expr_eqb_ok in X; subst
    | X : opt_eqb _ _ _ = true |- _ => apply (opt_eqb_ok _ _ _ expr_eqb_ok) in X; subst
    | X : list_eqb expr_eqb _ _ = true |- _ => apply list_eqb_ok in X; [subst|assumption || apply Forall_forall; intros; apply expr_eqb_ok; auto]
    | X : list_eqb param_eqb _ _ = true |- _ => apply (list_eqb_ok _ _ (Q _)) in X; subst
    | Hx : forall y, stmt_eqb ?a y = true -> ?a = y, X : stmt_eqb ?a ?b = true |- _ => apply Hx in X; subst
    | X : _ = true |- _ => apply L in X; [subst|assumption]
    end; auto.
Qed.

(** A definition with given parameters and body is what [find_def] finds. *)
Definition def_eqb (d : option (list (string * option expr) * list stmt)) (ps : list (string * option expr)) (b : list stmt) : bool :=
  match d with Some (ps', b') => list_eqb param_eqb ps' ps && list_eqb stmt_eqb b' b | None => false end.
Lemma def_eqb_ok d ps b : def_eqb d ps b = true -> d = Some (ps, b).
Proof.
  destruct d as [[ps' b']|]; [|discriminate]. simpl. intros E. apply andb_prop in E as [E1 E2].
  apply list_eqb_ok in E1.
  2:{ apply Forall_forall; intros [s o] _ [s' o'] E. apply andb_prop in E as [E3 E4]. simpl in *.
      apply String.eqb_eq in E3. apply (opt_eqb_ok _ _ _ expr_eqb_ok) in E4. congruence. }
  apply list_eqb_ok in E2; [congruence|]. apply Forall_forall; intros; apply stmt_eqb_ok; auto.
Qed.
