(** Running generated programs: evaluation rules, and blocks repeated for each dimension. *)
From Coq Require Import ZArith List Bool String Lia.
From Verif Require Import Base BaseFacts SplineModel PySyntax PySem PySemFacts GenModel GenNames.
Import ListNotations.
Open Scope Z_scope.
Open Scope num_scope.

(** ** Names *)
(** The names that belong to dimension [i]. *)
Definition named (i : nat) (x : string) : Prop := exists p s, good p /\ p <> "val_"%string /\ nondig s /\ x = nm p i s.
Lemma named_other i j x : named i x -> named j x -> i = j.
Proof. intros (p & s & Hp & _ & Hs & ->) (q & t & Hq & _ & Ht & E). now apply nm_inj in E. Qed.
Lemma nodigit_named x i : nodigit x = true -> ~ named i x.
Proof. intros H (p & s & _ & _ & _ & E). now apply (nodigit_nm x p i s) in H. Qed.
Lemma val_named oo i : ~ named i (val_name oo).
Proof.
  intros (p & s & Hp & Np & _ & E). pose proof (head_val oo) as H. rewrite E in H.
  destruct (head_good p i s Hp) as [E'|E']; rewrite E' in H; congruence.
Qed.
Lemma nm1_named p i : nodigit p = true -> p <> "d_"%string -> p <> "val_"%string -> named i (nm1 p i).
Proof. intros H1 H2 H3. exists p, ""%string. repeat split; auto. - left; auto. - apply nm1_nm. Qed.
Lemma nm2_named p i j : nodigit p = true -> p <> "d_"%string -> p <> "val_"%string -> named i (nm2 p i j).
Proof. intros H1 H2 H3. exists p, ("_" ++ dec j)%string. repeat split; auto. left; auto. Qed.
Lemma phi_not_val l : phi_prefix l <> "val_"%string.
Proof.
  unfold phi_prefix. destruct (Z.eqb l 0); [discriminate|]. destruct (Z.eqb l 1); [discriminate|]. discriminate.
Qed.
Lemma phi_named l i j : named i (phi l i j).
Proof. exists (phi_prefix l), ("_" ++ dec j)%string. repeat split; auto using good_phi, phi_not_val, phi_nm. Qed.
Lemma phi_inj l m i j j' : 0 <= l -> 0 <= m -> phi l i j = phi m i j' -> l = m /\ j = j'.
Proof.
  intros Hl Hm E. rewrite !phi_nm in E. apply nm_inj in E as (E1 & _ & E2); auto using good_phi; try reflexivity.
  split. - now apply phi_prefix_inj. - injection E2 as E2. now apply dec_inj.
Qed.
(** The weights are apart from the other names of a dimension. *)
Definition plain (p : string) : Prop := nodigit p = true /\ p <> "d_"%string /\ p <> "Φ_"%string /\ p <> "d_Φ_"%string.
Lemma phi_nm1 l i j p i' : plain p -> phi l i j <> nm1 p i'.
Proof.
  intros (H1 & H2 & H3 & H4) E. rewrite phi_nm, nm1_nm in E.
  apply nm_inj in E as (_ & _ & E); try reflexivity. - discriminate E. - apply good_phi. - left; auto.
Qed.
Lemma phi_nm2 l i j p i' j' : plain p -> phi l i j <> nm2 p i' j'.
Proof.
  intros (H1 & H2 & H3 & H4) E. rewrite phi_nm, nm2_nm in E.
  apply nm_inj in E as (E & _ & _); try reflexivity; try apply good_phi; [|left; auto].
  unfold phi_prefix in E. destruct (Z.eqb l 0); [congruence|]. destruct (Z.eqb l 1); [congruence|]. subst p.
  destruct (dec_cons (Z.to_nat l)) as (c & r & E & D). rewrite E in H1. cbn in H1. rewrite D in H1. discriminate.
Qed.
Lemma nm1_nm2 p q i j k : nodigit p = true -> p <> "d_"%string -> nodigit q = true -> q <> "d_"%string -> nm1 p i <> nm2 q j k.
Proof.
  intros H1 H2 H3 H4 E. rewrite nm1_nm, nm2_nm in E. apply nm_inj in E as (_ & _ & E); try reflexivity; try (left; auto). discriminate E.
Qed.
Lemma nm2_inj p i j j' : nodigit p = true -> p <> "d_"%string -> nm2 p i j = nm2 p i j' -> j = j'.
Proof.
  intros H1 H2 E. rewrite !nm2_nm in E. apply nm_inj in E as (_ & _ & E); try reflexivity; try (left; auto).
  injection E as E. now apply dec_inj.
Qed.
Lemma nm1_inj p q i j : nodigit p = true -> p <> "d_"%string -> nodigit q = true -> q <> "d_"%string -> nm1 p i = nm1 q j -> p = q /\ i = j.
Proof.
  intros H1 H2 H3 H4 E. rewrite !nm1_nm in E. apply nm_inj in E as (E1 & E2 & _); try reflexivity; try (left; auto); auto.
Qed.

Section Phase.
Context {T : Type} {NT : Num T}.
Variable G : env T.
Variable call : string -> list (val T) -> list (string * val T) -> heap T -> res (val T * heap T).
Variable fuel : nat.
Notation eval := (eval G call).
Notation evals := (evals G call).
Notation subs := (subs G call).
Notation assign := (assign G call).
Notation exec := (exec G call fuel).
Notation block := (block G call fuel).
Implicit Types (E : env T) (h : heap T) (v : val T).

(** ** Evaluation rules *)
Lemma ev_name E x h v : E x = Some v -> eval E (EName x) h = Ok (v, h).
Proof. intros H. cbn [PySem.eval]. now rewrite (lookup_in G _ _ _ H). Qed.
Lemma ev_global E x h v : E x = None -> G x = Some v -> eval E (EName x) h = Ok (v, h).
Proof. intros H1 H2. cbn [PySem.eval]. unfold lookup. now rewrite H1, H2. Qed.
Lemma lit1 : literal 10 1 = n_ofZ 1 :> T.
Proof. reflexivity. Qed.
Lemma lit0 : literal 0 1 = n_ofZ 0 :> T.
Proof. reflexivity. Qed.
Lemma ev_f1 E h : eval E f1 h = Ok (PFlt (n_ofZ 1), h).
Proof. reflexivity. Qed.
Lemma ev_f0 E h : eval E f0 h = Ok (PFlt (n_ofZ 0), h).
Proof. reflexivity. Qed.
Lemma ev_mf1 E h : eval E (ENeg f1) h = Ok (PFlt (n_ofZ (-1)), h).
Proof. reflexivity. Qed.
Lemma ev_int E h z : eval E (EInt z) h = Ok (PInt z, h).
Proof. reflexivity. Qed.
Lemma ev_bin E h o a b x y v : eval E a h = Ok (x, h) -> eval E b h = Ok (y, h) -> binop h o x y = Ok v -> eval E (EBin o a b) h = Ok (v, h).
Proof. intros H1 H2 H3. cbn [PySem.eval]. rewrite H1. cbn [bind]. rewrite H2. cbn [bind]. now rewrite H3. Qed.
Lemma ev_cmp E h o a b x y t : eval E a h = Ok (x, h) -> eval E b h = Ok (y, h) -> compare o x y = Ok t -> eval E (ECmp a [(o, b)]) h = Ok (PBool t, h).
Proof. intros H1 H2 H3. cbn [PySem.eval]. rewrite H1. cbn [bind]. rewrite H2. cbn [bind]. rewrite H3. cbn [bind]. destruct t; reflexivity. Qed.
Lemma ev_or E h a b s t : eval E a h = Ok (PBool s, h) -> eval E b h = Ok (PBool t, h) -> eval E (EOr a b) h = Ok (PBool (s || t), h).
Proof. intros H1 H2. cbn [PySem.eval]. rewrite H1. cbn [bind truth]. destruct s; auto. Qed.
Lemma evals_one E h a v : eval E a h = Ok (v, h) -> evals E [a] h = Ok ([v], h).
Proof. intros H. now rewrite (evals_cons G call _ _ _ _ _ _ H). Qed.
Lemma evals_two E h a b v w : eval E a h = Ok (v, h) -> eval E b h = Ok (w, h) -> evals E [a; b] h = Ok ([v; w], h).
Proof. intros H1 H2. now rewrite (evals_cons G call _ _ _ _ _ _ H1), (evals_one _ _ _ _ H2). Qed.
Lemma ev_call1 E h f a x r : f <> "isinstance"%string -> eval E a h = Ok (x, h) -> builtin f [x] h = Some r -> eval E (ECall (EName f) [a] []) h = r.
Proof. intros Hf H1 H2. rewrite eval_call, (evals_one _ _ _ _ H1) by auto. cbn [bind]. now rewrite H2. Qed.
Lemma ev_call2 E h f a b x y r : f <> "isinstance"%string -> eval E a h = Ok (x, h) -> eval E b h = Ok (y, h) -> builtin f [x; y] h = Some r ->
  eval E (ECall (EName f) [a; b] []) h = r.
Proof. intros Hf H1 H2 H3. rewrite eval_call, (evals_two _ _ _ _ _ _ H1 H2) by auto. cbn [bind]. now rewrite H3. Qed.
Lemma ev_np2 E h f a b x y r : eval E a h = Ok (x, h) -> eval E b h = Ok (y, h) -> builtin f [x; y] h = Some r ->
  eval E (ECall (EAttr (EName "np") f) [a; b] []) h = r.
Proof.
  intros H1 H2 H3. change (eval E (ECall (EAttr (EName "np") f) [a; b] []) h)
    with ('(vs, h) <- evals E [a; b] h ;; match builtin f vs h with Some r => r | None => call f vs [] h end).
  rewrite (evals_two _ _ _ _ _ _ H1 H2). cbn [bind]. now rewrite H3.
Qed.
Lemma subs_nil E h : subs E [] h = Ok ([], h).
Proof. reflexivity. Qed.
Lemma subs_cons E h a r z q : eval E a h = Ok (PInt z, h) -> subs E r h = Ok (q, h) -> subs E (a :: r) h = Ok (SIx z :: q, h).
Proof.
  intros H1 H2. destruct a; try discriminate H1; cbn [PySem.subs]; rewrite H1; cbn [bind to_sidx]; fold subs; now rewrite H2.
Qed.
Lemma subs_all E h r q : subs E r h = Ok (q, h) -> subs E (all_sub :: r) h = Ok (SAll :: q, h).
Proof. intros H2. cbn [PySem.subs all_sub]. cbn [bind]. fold subs. now rewrite H2. Qed.
Lemma ev_sub E h a l x i v : eval E a h = Ok (x, h) -> subs E l h = Ok (i, h) -> subscript h x i = Ok v -> eval E (ESub a l) h = Ok (v, h).
Proof.
  intros H1 H2 H3. change (eval E (ESub a l) h) with ('(x, h) <- eval E a h ;; '(i, h) <- subs E l h ;; v <- subscript h x i ;; Ok (v, h)).
  rewrite H1. cbn [bind]. rewrite H2. cbn [bind]. now rewrite H3.
Qed.
Lemma ev_shape E h a x d : eval E a h = Ok (x, h) -> vdims h x = Ok d -> eval E (EAttr a "shape") h = Ok (PTup (map PInt d), h).
Proof. intros H1 H2. cbn [PySem.eval]. rewrite H1. cbn [bind attribute String.eqb Ascii.eqb Bool.eqb]. now rewrite H2. Qed.

(** ** Blocks *)
Definition goes (l : list stmt) E h E' h' : Prop := block l E h = Ok (Nxt, E', h').
Lemma goes_nil E h : goes [] E h E h.
Proof. reflexivity. Qed.
Lemma goes_app l1 l2 E h E1 h1 E2 h2 : goes l1 E h E1 h1 -> goes l2 E1 h1 E2 h2 -> goes (l1 ++ l2) E h E2 h2.
Proof. unfold goes. intros H1 H2. rewrite block_app, H1. exact H2. Qed.
Lemma goes_cons s l E h E1 h1 E2 h2 : exec s E h = Ok (Nxt, E1, h1) -> goes l E1 h1 E2 h2 -> goes (s :: l) E h E2 h2.
Proof. unfold goes. intros H1 H2. rewrite block_cons, H1. exact H2. Qed.
Lemma goes_set x e l E h v h1 E2 h2 : eval E e h = Ok (v, h1) -> goes l (upd E x v) h1 E2 h2 -> goes (set x e :: l) E h E2 h2.
Proof. intros H1 H2. eapply goes_cons; [|exact H2]. unfold set. rewrite exec_set, H1. reflexivity. Qed.
Lemma goes_if c t b1 b2 l E h E1 h1 E2 h2 : eval E c h = Ok (PBool t, h) -> goes (if t then b1 else b2) E h E1 h1 -> goes l E1 h1 E2 h2 ->
  goes (SIf c b1 b2 :: l) E h E2 h2.
Proof.
  intros H1 H2 H3. eapply goes_cons; [|exact H3]. cbn [PySem.exec]. rewrite H1. cbn [bind truth]. destruct t; exact H2.
Qed.
(** A block that goes on, or stops. *)
Lemma block_goes l1 l2 E h E1 h1 r : goes l1 E h E1 h1 -> block l2 E1 h1 = r -> block (l1 ++ l2) E h = r.
Proof. unfold goes. intros H1 H2. now rewrite block_app, H1. Qed.
Lemma block_stops l1 l2 E h g E1 h1 : block l1 E h = Ok (g, E1, h1) -> g <> Nxt -> block (l1 ++ l2) E h = Ok (g, E1, h1).
Proof. intros H1 H2. rewrite block_app, H1. cbn [bind]. destruct g; congruence. Qed.
Lemma exec_if c t b1 b2 E h : eval E c h = Ok (PBool t, h) -> exec (SIf c b1 b2) E h = block (if t then b1 else b2) E h.
Proof. intros H1. cbn [PySem.exec]. rewrite H1. cbn [bind truth]. destruct t; reflexivity. Qed.

(** ** A block for each dimension *)
Definition frame (i : nat) E E' : Prop := forall x, ~ named i x -> E' x = E x.
Definition gframe E E' : Prop := forall x, (forall i, ~ named i x) -> E' x = E x.
Definition local (i : nat) (P : env T -> Prop) : Prop := forall E E', (forall x, named i x -> E' x = E x) -> P E -> P E'.
Definition glob (P : env T -> Prop) : Prop := forall E E', gframe E E' -> P E -> P E'.
Lemma frame_refl i E : frame i E E.
Proof. intros x _. reflexivity. Qed.
Lemma frame_upd i E E' x v : named i x -> frame i E E' -> frame i E (upd E' x v).
Proof.
  intros Hx H y Hy. rewrite upd_other. - now apply H. - intros ->. contradiction.
Qed.
Lemma frame_trans i E1 E2 E3 : frame i E1 E2 -> frame i E2 E3 -> frame i E1 E3.
Proof. intros H1 H2 x Hx. rewrite H2, H1; auto. Qed.
Lemma frame_g i E E' : frame i E E' -> gframe E E'.
Proof. intros H x Hx. apply H. apply Hx. Qed.
Lemma gframe_refl E : gframe E E.
Proof. intros x _. reflexivity. Qed.
Lemma gframe_trans E1 E2 E3 : gframe E1 E2 -> gframe E2 E3 -> gframe E1 E3.
Proof. intros H1 H2 x Hx. rewrite H2, H1; auto. Qed.

Lemma phase (K : env T -> Prop) (P Q : nat -> env T -> Prop) blk n h :
  glob K -> (forall i, local i (P i)) -> (forall i, local i (Q i)) ->
  (forall i E, (i < n)%nat -> K E -> P i E -> exists E', goes (blk i) E h E' h /\ frame i E E' /\ Q i E') ->
  forall E, K E -> (forall i, (i < n)%nat -> P i E) ->
  exists E', goes (flat_map blk (seq 0 n)) E h E' h /\ gframe E E' /\ K E' /\ forall i, (i < n)%nat -> Q i E'.
Proof.
  intros HK HP HQ HB.
  assert (X : forall m i0 E, (i0 + m <= n)%nat -> K E -> (forall i, (i0 <= i < i0 + m)%nat -> P i E) ->
    exists E', goes (flat_map blk (seq i0 m)) E h E' h /\ gframe E E' /\ (forall i, (i0 <= i < i0 + m)%nat -> Q i E') /\
      forall i x, ~ (i0 <= i < i0 + m)%nat -> named i x -> E' x = E x).
  { induction m as [|m IH]; intros i0 E Hm KE PE; cbn [seq flat_map].
    - exists E. split; [apply goes_nil|]. split; [apply gframe_refl|]. split; [lia|]. auto.
    - destruct (HB i0 E) as (E1 & R1 & F1 & Q1); auto; [lia|apply PE; lia|].
      assert (A : forall j x, j <> i0 -> named j x -> E1 x = E x).
      { intros j x Hj Hx. apply F1. intros Hx'. apply Hj. eapply named_other; eauto. }
      destruct (IH (S i0) E1) as (E2 & R2 & F2 & Q2 & O2); [lia| | |].
      + apply (HK E); auto. now apply frame_g in F1.
      + intros i Hi. apply (HP i E); [|apply PE; lia]. intros x Hx. apply (A i); auto; lia.
      + exists E2. split; [eapply goes_app; eauto|]. split; [eapply gframe_trans; [eapply frame_g; eauto|eauto]|]. split.
        * intros i Hi. destruct (Nat.eq_dec i i0) as [->|Ni].
          -- apply (HQ i0 E1); auto. intros x Hx. apply (O2 i0); auto. lia.
          -- apply Q2. lia.
        * intros i x Hi Hx. rewrite (O2 i x); auto; [|lia]. apply (A i); auto; lia. }
  intros E KE PE. destruct (X n 0%nat E) as (E' & R & F & Q' & _); auto; [intros; apply PE; lia|].
  exists E'. split; auto. split; auto. split; [eapply HK; eauto|]. intros i Hi. apply Q'. lia.
Qed.

(** ** Loops *)
Lemma iter_ok {S A} (f : S -> A -> res S) (inj : A -> val T) (R : S -> env T -> heap T -> Prop) body l :
  (forall s a s' E h, In a l -> f s a = Ok s' -> R s E h ->
     exists g E' h', body (inj a) E h = Ok (g, E', h') /\ (g = Nxt \/ g = Cnt) /\ R s' E' h') ->
  forall s s' E h, foldM f l s = Ok s' -> R s E h -> exists E' h', iterate body (map inj l) E h = Ok (Nxt, E', h') /\ R s' E' h'.
Proof.
  induction l as [|a l IH]; intros HB s s' E h Hf H; cbn [map iterate foldM] in *.
  - injection Hf as <-. eauto.
  - apply bind_ok in Hf as (s1 & H1 & H2).
    destruct (HB s a s1 E h (or_introl eq_refl) H1 H) as (g & E' & h' & -> & Hg & H').
    assert (HB' : forall s a s' E h, In a l -> f s a = Ok s' -> R s E h ->
      exists g E' h', body (inj a) E h = Ok (g, E', h') /\ (g = Nxt \/ g = Cnt) /\ R s' E' h') by (intros; eapply HB; eauto; now right).
    destruct (IH HB' s1 s' E' h' H2 H') as (E2 & h2 & R2 & H2').
    exists E2, h2. split; auto. cbn [bind]. destruct Hg as [-> | ->]; auto.
Qed.
Lemma range_ok {S} (f : S -> Z -> res S) (R : S -> env T -> heap T -> Prop) x n N b :
  (forall s i s' E h, 0 <= i < N -> f s i = Ok s' -> R s E h ->
     exists g E' h', block b (upd E x (PInt i)) h = Ok (g, E', h') /\ (g = Nxt \/ g = Cnt) /\ R s' E' h') ->
  forall s s' E h, E n = Some (PInt N) -> foldM f (zrange N) s = Ok s' -> R s E h ->
  exists E' h', exec (SFor (EName x) (ECall (EName "range") [EName n] []) b) E h = Ok (Nxt, E', h') /\ R s' E' h'.
Proof.
  intros HB s s' E h HN Hf H. cbn [PySem.exec]. fold block.
  rewrite (ev_call1 E h "range" (EName n) (PInt N) (Ok (PTup (map PInt (zrange N)), h))); [|discriminate|now apply ev_name|reflexivity].
  cbn [bind]. apply (iter_ok f PInt R) with (s := s); auto.
  intros s0 a s1 E0 h0 Ha Hfa HR. apply zrange_In in Ha. apply (HB s0 a s1); auto.
Qed.
End Phase.
