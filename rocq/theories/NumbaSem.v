(** Running the syntax trees of NumbaGen.v: the environment after each group of statements. *)
From Coq Require Import ZArith List Bool String Ascii Lia.
From Verif Require Import Base BaseFacts SplineModel GradModel PySyntax PySem SpecText PySemFacts NumbaGen.
Import ListNotations.
Open Scope list_scope.
Open Scope Z_scope.
Open Scope num_scope.

(** ** Names *)
Lemma digit_inj a b : (a < 10)%nat -> (b < 10)%nat -> digit a = digit b -> a = b.
Proof.
  intros Ha Hb H. unfold digit in H.
  assert (E : ascii_of_nat (48 + a) = ascii_of_nat (48 + b)) by congruence.
  apply (f_equal nat_of_ascii) in E. rewrite !nat_ascii_embedding in E by lia. lia.
Qed.
Lemma append_inj p a b : (p ++ a)%string = (p ++ b)%string -> a = b.
Proof. induction p; cbn; intros H; auto. injection H; auto. Qed.
Lemma nm_neq p a b : (a < 10)%nat -> (b < 10)%nat -> a <> b -> nm p a <> nm p b.
Proof. intros Ha Hb H E. apply append_inj in E. apply H, digit_inj; auto. Qed.
Lemma nm2_neq1 p a b j k : (a < 10)%nat -> (b < 10)%nat -> a <> b -> nm2 p a j <> nm2 p b k.
Proof.
  intros Ha Hb H E. apply append_inj in E. apply H, digit_inj; auto. unfold digit in * . cbn [append] in E.
  congruence.
Qed.
Lemma nm2_neq2 p a b j k : (j < 10)%nat -> (k < 10)%nat -> j <> k -> nm2 p a j <> nm2 p b k.
Proof.
  intros Ha Hb H E. apply append_inj in E. apply H, digit_inj; auto. unfold digit in * . cbn [append] in E.
  congruence.
Qed.
Lemma t_tp a b j : (a < 10)%nat -> nm "t" a <> nm2 "tp" b j.
Proof. intros Ha. do 10 (destruct a as [|a]; [discriminate|]). lia. Qed.

Global Arguments nm p m : simpl never.
Global Arguments nm2 p m j : simpl never.
Global Arguments digit n : simpl never.

Ltac neq :=
  first [ discriminate | (apply nm_neq; [lia | lia | lia]) | (apply nm2_neq1; [lia|lia|lia]) | (apply nm2_neq2; [lia|lia|lia])
        | (apply t_tp; lia) | (intros ?E; symmetry in E; revert E; apply t_tp; lia) ].
Ltac lk := repeat first [rewrite upd_same | rewrite upd_other by neq].

Section Sem.
Context {T : Type} {NT : Num T}.
Variable G : env T.
Variable call : string -> list (val T) -> list (string * val T) -> heap T -> res (val T * heap T).
Variable fuel : nat.
Notation eval := (eval G call).
Notation exec := (exec G call fuel).
Notation block := (block G call fuel).
Notation lookup := (lookup G).

(** Names that a block of dimension [q] may change. *)
Definition frame1 (ps : list string) (q : nat) (E E' : env T) : Prop :=
  forall x, (forall p, In p ps -> x <> nm p q) -> (forall p j, In p ps -> (j < 4)%nat -> x <> nm2 p q j) -> E' x = E x.
Definition frame (ps : list string) (E E' : env T) : Prop :=
  forall x, (forall p q, In p ps -> (q < 10)%nat -> x <> nm p q) ->
    (forall p q j, In p ps -> (q < 10)%nat -> (j < 4)%nat -> x <> nm2 p q j) -> E' x = E x.
Lemma frame_refl ps E : frame ps E E.
Proof. intros x _ _; auto. Qed.
Lemma frame_trans ps E1 E2 E3 : frame ps E1 E2 -> frame ps E2 E3 -> frame ps E1 E3.
Proof. intros H1 H2 x A B. rewrite H2, H1; auto. Qed.
Lemma frame_of1 ps q E E' : (q < 10)%nat -> frame1 ps q E E' -> frame ps E E'.
Proof. intros Hq H x A B. apply H; intros; auto. Qed.
Lemma frame_weak ps ps' E E' : incl ps ps' -> frame ps E E' -> frame ps' E E'.
Proof. intros Hi H x A B. apply H; intros; auto. Qed.

(** A group of statements repeated for the dimensions 0 .. d-1 that cannot fail. *)
Lemma block_family ps (s : nat -> list stmt) (P : env T -> nat -> Prop) (Inv : env T -> Prop) d :
  (d <= 10)%nat ->
  (forall q E E', (q < 10)%nat -> frame1 ps q E E' -> forall q', (q' < 10)%nat -> q' <> q -> P E q' -> P E' q') ->
  (forall E E', frame ps E E' -> Inv E -> Inv E') ->
  (forall q E h, (q < d)%nat -> Inv E -> exists E', block (s q) E h = Ok (Nxt, E', h) /\ frame1 ps q E E' /\ P E' q) ->
  forall E h, Inv E ->
  exists E', block (flat_map s (dims d)) E h = Ok (Nxt, E', h) /\ frame ps E E' /\ forall q, (q < d)%nat -> P E' q.
Proof.
  intros Hd HP HI HB E h H0. unfold dims.
  assert (G1 : forall n m E, (m + n = d)%nat -> Inv E -> (forall q, (q < m)%nat -> P E q) ->
    exists E', block (flat_map s (seq m n)) E h = Ok (Nxt, E', h) /\ frame ps E E' /\ forall q, (q < d)%nat -> P E' q).
  { induction n as [|n IH]; intros m E1 Hm H1 HPm.
    - exists E1. cbn. split; auto. split; [apply frame_refl|]. intros q Hq. apply HPm. lia.
    - cbn [seq flat_map]. rewrite block_app.
      destruct (HB m E1 h ltac:(lia) H1) as (E2 & -> & F2 & P2). cbn [bind].
      pose proof (frame_of1 ps m E1 E2 ltac:(lia) F2) as F2'.
      destruct (IH (S m) E2) as (E3 & B3 & F3 & P3); try lia.
      + eapply HI; eauto.
      + intros q Hq. destruct (Nat.eq_dec q m) as [->|Hn]; auto. apply (HP m E1 E2); auto; try lia. apply HPm. lia.
      + exists E3. split; auto. split; auto. eapply frame_trans; eauto. }
  apply (G1 d 0%nat E); auto. intros; lia.
Qed.

(** The same with a possible failure and a result per dimension. *)
Lemma sim_family {A} ps (s : nat -> list stmt) (f : nat -> res A) (P : env T -> nat -> A -> Prop) (Inv : env T -> Prop) d :
  (d <= 10)%nat ->
  (forall q E E', (q < 10)%nat -> frame1 ps q E E' -> forall q' a, (q' < 10)%nat -> q' <> q -> P E q' a -> P E' q' a) ->
  (forall E E', frame ps E E' -> Inv E -> Inv E') ->
  forall h,
  (forall q E, (q < d)%nat -> Inv E -> sim (f q) (block (s q) E h) (fun a E' h' => h' = h /\ frame1 ps q E E' /\ P E' q a)) ->
  forall E, Inv E ->
  sim (mapM f (seq 0 d)) (block (flat_map s (dims d)) E h)
    (fun L E' h' => h' = h /\ frame ps E E' /\ List.length L = d /\ forall q a, nth_error L q = Some a -> P E' q a).
Proof.
  intros Hd HP HI h HB E H0. unfold dims.
  assert (G1 : forall n m E acc, (m + n = d)%nat -> Inv E -> List.length acc = m -> (forall q a, nth_error acc q = Some a -> P E q a) ->
    sim (l <- mapM f (seq m n) ;; Ok (acc ++ l)) (block (flat_map s (seq m n)) E h)
      (fun L E' h' => h' = h /\ frame ps E E' /\ List.length L = d /\ forall q a, nth_error L q = Some a -> P E' q a)).
  { induction n as [|n IH]; intros m E1 acc Hm H1 Hl HPm.
    - cbn. rewrite app_nil_r. exists E1, h. repeat split; auto; try apply frame_refl. lia.
    - cbn [seq flat_map mapM]. rewrite block_app. pose proof (HB m E1 ltac:(lia) H1) as Hs.
      destruct (f m) as [a|e]; cbn [sim] in Hs; [|now rewrite Hs].
      destruct Hs as (E2 & h2 & -> & -> & F2 & P2). cbn [bind].
      pose proof (frame_of1 ps m E1 E2 ltac:(lia) F2) as F2'.
      assert (HS : sim (l <- mapM f (seq (S m) n) ;; Ok ((acc ++ [a]) ++ l)) (block (flat_map s (seq (S m) n)) E2 h)
        (fun L E' h' => h' = h /\ frame ps E2 E' /\ List.length L = d /\ forall q a, nth_error L q = Some a -> P E' q a)).
      { apply IH; try lia.
        - eapply HI; eauto.
        - rewrite app_length. cbn. lia.
        - intros q a' Hq. assert (Hlt : (q < List.length (acc ++ [a]))%nat) by (apply nth_error_Some; congruence).
          rewrite app_length in Hlt. cbn in Hlt. destruct (Nat.eq_dec q m) as [->|Hn].
          + rewrite nth_error_app2 in Hq by lia. replace (m - List.length acc)%nat with 0%nat in Hq by lia. injection Hq as <-. auto.
          + rewrite nth_error_app1 in Hq by lia. apply (HP m E1 E2); auto; lia. }
      destruct (mapM f (seq (S m) n)) as [l|e]; cbn in HS |- *; auto.
      destruct HS as (E3 & h3 & B3 & -> & F3 & L3 & P3). exists E3, h. rewrite <- app_assoc in L3, P3. cbn in L3, P3.
      repeat split; auto. eapply frame_trans; eauto. }
  pose proof (G1 d 0%nat E [] eq_refl H0 eq_refl) as HS. cbn [app] in HS.
  assert (HS' : sim (l <- mapM f (seq 0 d) ;; Ok l) (block (flat_map s (seq 0 d)) E h)
      (fun L E' h' => h' = h /\ frame ps E E' /\ List.length L = d /\ forall q a, nth_error L q = Some a -> P E' q a)).
  { apply HS. intros q a Hq. destruct q; discriminate. }
  destruct (mapM f (seq 0 d)); auto.
Qed.

(** ** Constant arrays *)
Lemma lget_vec {A} (l : list A) d q :
  (if inb [zlen l] [Z.of_nat q] then Ok (nth (Z.to_nat (Z.of_nat q)) l d) else Err IndexErr) = lget l (Z.of_nat q).
Proof.
  unfold lget. destruct (Z.ltb_spec (Z.of_nat q) 0); [lia|]. cbn. rewrite Nat2Z.id.
  destruct (Z.leb_spec 0 (Z.of_nat q)); [|lia]. cbn. rewrite andb_true_r.
  destruct (Z.ltb_spec (Z.of_nat q) (zlen l)).
  - rewrite (nth_error_nth' l d) by (unfold zlen in *; lia). reflexivity.
  - rewrite (proj2 (nth_error_None l q)) by (unfold zlen in *; lia). reflexivity.
Qed.
Lemma aget_vecT l q : aget (vecT l) [Z.of_nat q] = lget l (Z.of_nat q).
Proof. unfold aget. cbn [ashape acell vecT hd]. rewrite <- (lget_vec l (n_ofZ 0)). change (zlen [_] =? zlen [_]) with true. reflexivity. Qed.
Lemma aget_vecZ l q : aget (vecZ l) [Z.of_nat q] = lget l (Z.of_nat q).
Proof. unfold aget. cbn [ashape acell vecZ hd]. rewrite <- (lget_vec l 0). change (zlen [_] =? zlen [_]) with true. reflexivity. Qed.

Lemma eval_at1T E h x l loc q : E x = Some (PArr loc []) -> nth_error h loc = Some (OF (vecT l)) ->
  eval E (at1 x q) h = (v <- lget l (Z.of_nat q) ;; Ok (PFlt v, h)).
Proof.
  intros H1 H2. unfold at1, I. cbn [PySem.eval]. rewrite (lookup_in _ _ _ _ H1). cbn -[oget wrap aget].
  unfold hget. rewrite H2. cbn -[oget wrap aget]. rewrite wrap_pos by lia. unfold oget. rewrite aget_vecT.
  destruct (lget l (Z.of_nat q)); reflexivity.
Qed.
Lemma eval_at1Z E h x l loc q : E x = Some (PArr loc []) -> nth_error h loc = Some (OI (vecZ l)) ->
  eval E (at1 x q) h = (v <- lget l (Z.of_nat q) ;; Ok (PInt v, h)).
Proof.
  intros H1 H2. unfold at1, I. cbn [PySem.eval]. rewrite (lookup_in _ _ _ _ H1). cbn -[oget wrap aget].
  unfold hget. rewrite H2. cbn -[oget wrap aget]. rewrite wrap_pos by lia. unfold oget. rewrite aget_vecZ.
  destruct (lget l (Z.of_nat q)); reflexivity.
Qed.

Lemma eval_bin E h o a b x y : eval E a h = Ok (x, h) -> eval E b h = Ok (y, h) ->
  eval E (EBin o a b) h = (v <- binop h o x y ;; Ok (v, h)).
Proof. intros H1 H2. cbn [PySem.eval]. rewrite H1. cbn [bind]. rewrite H2. reflexivity. Qed.
Lemma eval_name E h x v : E x = Some v -> eval E (EName x) h = Ok (v, h).
Proof. intros H. cbn [PySem.eval]. now rewrite (lookup_in _ _ _ _ H). Qed.

(** ** M, start, dinv *)
Definition dimP (E : env T) (q : nat) (D : Z * T * T) : Prop :=
  E (nm "M" q) = Some (PInt (fst (fst D))) /\ E (nm "start" q) = Some (PFlt (snd (fst D))) /\ E (nm "dinv" q) = Some (PFlt (snd D)).
Definition dim_names := ["M"; "start"; "dinv"]%string.

Lemma run_dim a b orders h la lb lo q E : (q < 10)%nat ->
  E "a"%string = Some (PArr la []) -> E "b"%string = Some (PArr lb []) -> E "orders"%string = Some (PArr lo []) ->
  nth_error h la = Some (OF (vecT a)) -> nth_error h lb = Some (OF (vecT b)) -> nth_error h lo = Some (OI (vecZ orders)) ->
  sim (g_dim a b orders (Z.of_nat q)) (block (s_dim q) E h) (fun D E' h' => h' = h /\ frame1 dim_names q E E' /\ dimP E' q D).
Proof.
  intros Hq Ha Hb Ho Ka Kb Ko. unfold s_dim, g_dim, set.
  rewrite block_cons, exec_set, (eval_at1Z E h "orders" orders lo q) by auto.
  destruct (lget orders (Z.of_nat q)) as [M|] eqn:EM; [|reflexivity]. cbn [bind].
  rewrite block_cons, exec_set, (eval_at1T _ h "a" a la q) by (lk; auto).
  destruct (lget a (Z.of_nat q)) as [s|] eqn:Es; [|reflexivity]. cbn [bind].
  rewrite block_cons, exec_set.
  cbn [PySem.eval]. rewrite (eval_at1Z _ h "orders" orders lo q) by (lk; auto). rewrite EM. cbn [bind PySem.eval one binop is_array].
  cbn [arith String.eqb Ascii.eqb Bool.eqb num bind]. rewrite (eval_at1T _ h "b" b lb q) by (lk; auto).
  destruct (lget b (Z.of_nat q)) as [bq|] eqn:Eb; [|reflexivity]. cbn [bind].
  rewrite (eval_at1T _ h "a" a la q) by (lk; auto). rewrite Es. cbn -[divE]. unfold literal. cbn -[divE].
  destruct (divE _ _) as [dv|] eqn:Ed; [|reflexivity]. cbn.
  eexists _, h. split; [reflexivity|]. split; auto. split.
  - intros x A B. rewrite !upd_other; auto; apply A; unfold dim_names; cbn; tauto.
  - unfold dimP. cbn [fst snd]. lk. auto.
Qed.

Lemma dimP_frame q E E' : (q < 10)%nat -> frame1 dim_names q E E' ->
  forall q' D, (q' < 10)%nat -> q' <> q -> dimP E q' D -> dimP E' q' D.
Proof.
  intros Hq F q' D Hq' Hn (A & B & C). unfold dimP.
  assert (K : forall p, In p dim_names -> E' (nm p q') = E (nm p q')).
  { intros p Hp. apply F.
    - intros p' Hp'. unfold dim_names in * . cbn in Hp, Hp'. decompose [or False] Hp; decompose [or False] Hp'; subst; neq.
    - intros p' j Hp' Hj. unfold dim_names in * . cbn in Hp, Hp'. decompose [or False] Hp; decompose [or False] Hp'; subst; neq. }
  rewrite !K; auto; unfold dim_names; cbn; tauto.
Qed.

(** Running a list of assignments to names. *)
Lemma block_set x e l E h v : eval E e h = Ok (v, h) -> block (set x e :: l) E h = block l (upd E x v) h.
Proof. intros H. unfold set. rewrite block_cons, exec_set, H. reflexivity. Qed.
Lemma frame1_upd ps q p E v : In p ps -> frame1 ps q E (upd E (nm p q) v).
Proof. intros Hp x A B. apply upd_other; auto. Qed.
Lemma frame1_upd2 ps q p j E v : In p ps -> (j < 4)%nat -> frame1 ps q E (upd E (nm2 p q j) v).
Proof. intros Hp Hj x A B. apply upd_other; auto. Qed.
Lemma frame1_refl ps q E : frame1 ps q E E.
Proof. intros x _ _; auto. Qed.
Lemma frame1_trans ps q E1 E2 E3 : frame1 ps q E1 E2 -> frame1 ps q E2 E3 -> frame1 ps q E1 E3.
Proof. intros H1 H2 x A B. rewrite H2, H1; auto. Qed.

(** ** Cell and coordinate in the cell *)
Definition cell_i (x : T) (D : Z * T * T) : Z :=
  let '(M, start, dinv) := D in Z.max (Z.min (n_floor ((x -! start) *! dinv)) (M - 2)) 0.
Definition cell_t (x : T) (D : Z * T * T) : T :=
  let '(M, start, dinv) := D in (x -! start) *! dinv -! n_ofZ (cell_i x D).
Lemma g_cell_it x D : g_cell x D = (cell_i x D, (map (g_phi (cell_t x D)) [0; 1; 2; 3], map (g_dphi (cell_t x D) (snd D)) [0; 1; 2; 3])).
Proof. destruct D as [[M s] dv]. reflexivity. Qed.
Definition cell_names := ["u"; "i"; "t"]%string.
Definition cellP (E : env T) (q : nat) (i : Z) (t : T) : Prop :=
  E (nm "i" q) = Some (PInt i) /\ E (nm "t" q) = Some (PFlt t).

Ltac frs := repeat (eapply frame1_trans; [|first [apply frame1_upd | apply frame1_upd2; [|lia]]; cbn; tauto]); apply frame1_refl.

(** Expressions that evaluate to a value without changing the heap. *)
Definition ev (E : env T) (h : heap T) (e : expr) (v : val T) : Prop := eval E e h = Ok (v, h).
Lemma ev_name E h x v : E x = Some v -> ev E h (EName x) v.
Proof. apply eval_name. Qed.
Lemma ev_V E h p m v : E (nm p m) = Some v -> ev E h (V p m) v.
Proof. apply eval_name. Qed.
Lemma ev_V2 E h p m j v : E (nm2 p m j) = Some v -> ev E h (V2 p m j) v.
Proof. apply eval_name. Qed.
Lemma ev_I E h n : ev E h (I n) (PInt (Z.of_nat n)).
Proof. reflexivity. Qed.
Lemma ev_one E h : ev E h one (PFlt (n_ofZ 1)).
Proof. reflexivity. Qed.
Lemma ev_bin E h o a b x y v : ev E h a x -> ev E h b y -> binop h o x y = Ok v -> ev E h (EBin o a b) v.
Proof. unfold ev. intros H1 H2 H3. rewrite (eval_bin _ _ _ _ _ x y), H3; auto. Qed.
Lemma builtin_name f vs h r : builtin f vs h = Some r -> f <> "isinstance"%string.
Proof. intros H ->. discriminate H. Qed.
Lemma ev_call1 E h f a x v : ev E h a x -> builtin f [x] h = Some (Ok (v, h)) -> ev E h (ECall (EName f) [a] []) v.
Proof.
  unfold ev. intros H1 H2. rewrite eval_call by (eapply builtin_name; eauto).
  rewrite (evals_cons _ _ _ _ _ _ _ _ H1). cbn [bind evals]. now rewrite H2.
Qed.
Lemma ev_call2 E h f a b x y v : ev E h a x -> ev E h b y -> builtin f [x; y] h = Some (Ok (v, h)) -> ev E h (ECall (EName f) [a; b] []) v.
Proof.
  unfold ev. intros H1 H2 H3. rewrite eval_call by (eapply builtin_name; eauto).
  rewrite (evals_cons _ _ _ _ _ _ _ _ H1), (evals_cons _ _ _ _ _ _ _ _ H2). cbn [bind evals]. now rewrite H3.
Qed.
Lemma block_ev x e l E h v : ev E h e v -> block (set x e :: l) E h = block l (upd E x v) h.
Proof. apply block_set. Qed.

Ltac evs := lazymatch goal with
  | |- ev _ _ (I _) _ => apply ev_I
  | |- ev _ _ one _ => apply ev_one
  | |- ev _ _ (V _ _) _ => apply ev_V; lk; first [eassumption | reflexivity]
  | |- ev _ _ (V2 _ _ _) _ => apply ev_V2; lk; first [eassumption | reflexivity]
  | |- ev _ _ (EName _) _ => apply ev_name; lk; first [eassumption | reflexivity]
  | |- ev _ _ (EBin _ _ _) _ => eapply ev_bin; [evs|evs|reflexivity]
  | |- ev _ _ (ECall _ [_] _) _ => eapply ev_call1; [evs|reflexivity]
  | |- ev _ _ (ECall _ [_; _] _) _ => eapply ev_call2; [evs|evs|reflexivity]
  end.

Lemma run_cell q E h D x : (q < 10)%nat -> dimP E q D -> E (nm "x" q) = Some (PFlt x) ->
  exists E', block (s_cell q) E h = Ok (Nxt, E', h) /\ frame1 cell_names q E E' /\ cellP E' q (cell_i x D) (cell_t x D).
Proof.
  intros Hq (HM & Hs & Hd) Hx. unfold s_cell. destruct D as [[M s] dv]. cbn [fst snd] in * . eexists. split; [|split].
  - do 4 (erewrite block_ev by evs). apply block_nil.
  - frs.
  - split; lk; auto.
Qed.

(** ** Weights *)
(** The tables are module constants. *)
Hypothesis HAd : forall E j c h, (j < 4)%nat -> (c < 4)%nat -> E "Ad"%string = None ->
  ev E h (Adx j c) (PFlt (Ad (Z.of_nat j) (Z.of_nat c))).
Hypothesis HdAd : forall E j c h, (j < 4)%nat -> (c < 4)%nat -> E "dAd"%string = None ->
  ev E h (dAdx j c) (PFlt (dAd (Z.of_nat j) (Z.of_nat c))).

Definition powP (E : env T) (q : nat) (t : T) : Prop :=
  E (nm2 "tp" q 0) = Some (PFlt (t *! t *! t)) /\ E (nm2 "tp" q 1) = Some (PFlt (t *! t)) /\
  E (nm2 "tp" q 2) = Some (PFlt t) /\ E (nm2 "tp" q 3) = Some (PFlt (n_ofZ 1)).
Lemma run_pow q E h t : (q < 10)%nat -> E (nm "t" q) = Some (PFlt t) ->
  exists E', block (s_pow q) E h = Ok (Nxt, E', h) /\ frame1 ["tp"%string] q E E' /\ powP E' q t.
Proof.
  intros Hq Ht. unfold s_pow. eexists. split; [|split].
  - do 4 (erewrite block_ev by evs). apply block_nil.
  - frs.
  - unfold powP. lk. auto.
Qed.

Ltac evt := lazymatch goal with
  | |- ev _ _ (I _) _ => apply ev_I
  | |- ev _ _ one _ => apply ev_one
  | |- ev _ _ (Adx _ _) _ => apply HAd; [lia|lia|assumption]
  | |- ev _ _ (dAdx _ _) _ => apply HdAd; [lia|lia|assumption]
  | |- ev _ _ (V _ _) _ => apply ev_V; eassumption
  | |- ev _ _ (V2 _ _ _) _ => apply ev_V2; eassumption
  | |- ev _ _ (EBin _ _ _) _ => eapply ev_bin; [evt|evt|reflexivity]
  end.

Definition phiP (p : string) (E : env T) (q : nat) (w : Z -> T) : Prop :=
  forall j, (j < 4)%nat -> E (nm2 p q j) = Some (PFlt (w (Z.of_nat j))).

(** Four weights computed from an environment that the assignments do not touch. *)
Lemma run_phis p q (e : nat -> expr) (w : Z -> val T) (Inv : env T -> Prop) E h :
  (forall E j v, (j < 4)%nat -> Inv E -> Inv (upd E (nm2 p q j) v)) ->
  (forall E j, (j < 4)%nat -> Inv E -> ev E h (e j) (w (Z.of_nat j))) -> Inv E ->
  exists E', block (map (fun j => set (nm2 p q j) (e j)) js) E h = Ok (Nxt, E', h) /\ frame1 [p] q E E' /\ Inv E' /\
    forall j, (j < 4)%nat -> E' (nm2 p q j) = Some (w (Z.of_nat j)).
Proof.
  intros H1 H2 H0. cbn [map js]. eexists. split; [|split; [|split]].
  - rewrite (block_ev _ _ _ _ _ (w 0)) by (apply (H2 E 0%nat); [lia|auto]).
    rewrite (block_ev _ _ _ _ _ (w 1)) by (apply (H2 _ 1%nat); [lia|repeat (apply H1; [lia|]); auto]).
    rewrite (block_ev _ _ _ _ _ (w 2)) by (apply (H2 _ 2%nat); [lia|repeat (apply H1; [lia|]); auto]).
    rewrite (block_ev _ _ _ _ _ (w 3)) by (apply (H2 _ 3%nat); [lia|repeat (apply H1; [lia|]); auto]).
    apply block_nil.
  - frs.
  - repeat (apply H1; [lia|]); auto.
  - intros j Hj. do 4 (destruct j as [|j]; [lk; auto|]). lia.
Qed.

Lemma block_if c b1 b2 l E h b : ev E h c (PBool b) ->
  block (SIf c b1 b2 :: l) E h =
  ('(g, E, h) <- block (if b then b1 else b2) E h ;; match g with Nxt => block l E h | _ => Ok (g, E, h) end).
Proof.
  intros H. rewrite block_cons. cbn [PySem.exec]. unfold ev in H. rewrite H. cbn [bind truth]. fold block. destruct b; auto.
Qed.
Lemma ev_cmp E h a o c x y b : ev E h a x -> ev E h c y -> compare o x y = Ok b -> ev E h (ECmp a [(o, c)]) (PBool b).
Proof.
  unfold ev. intros H1 H2 H3. cbn [PySem.eval]. rewrite H1. cbn [bind]. rewrite H2. cbn [bind]. rewrite H3. cbn [bind]. now destruct b.
Qed.

Lemma run_phi q E h t : (q < 10)%nat -> E (nm "t" q) = Some (PFlt t) -> powP E q t -> E "Ad"%string = None -> E "dAd"%string = None ->
  exists E', block (s_phi q) E h = Ok (Nxt, E', h) /\ frame1 ["Phi"%string] q E E' /\ phiP "Phi" E' q (g_phi t).
Proof.
  intros Hq Ht Hp Ha Hd. unfold s_phi, phis.
  pose (Inv := fun E : env T => E (nm "t" q) = Some (PFlt t) /\ powP E q t /\ E "Ad"%string = None /\ E "dAd"%string = None).
  assert (HI : forall E j v, (j < 4)%nat -> Inv E -> Inv (upd E (nm2 "Phi" q j) v)).
  { intros E1 j v Hj (A & (P0 & P1 & P2 & P3) & B & C). repeat split; lk; auto. }
  rewrite block_app.
  destruct (run_phis "Phi" q (fun _ => I 0) (fun _ => PInt 0) Inv E h HI) as (E1 & -> & F1 & I1 & _).
  { intros; apply ev_I. }
  { repeat split; auto; apply Hp. }
  cbn [bind]. destruct I1 as (Ht1 & Hp1 & Ha1 & Hd1).
  rewrite (block_if _ _ _ _ _ _ (t <?! n_ofZ 0)) by (eapply ev_cmp; [evt|evt|reflexivity]).
  unfold g_phi, phiP. destruct (t <?! n_ofZ 0).
  - destruct (run_phis "Phi" q (fun j => e_low q j) (fun j => PFlt (dAd j 3 *! t +! Ad j 3)) Inv E1 h HI) as (E2 & -> & F2 & _ & W).
    { intros E2 j Hj (A & (P0 & P1 & P2 & P3) & B & C). unfold e_low. evt. }
    { repeat split; auto; apply Hp1. }
    exists E2. split; auto. split; auto. eapply frame1_trans; eauto.
  - rewrite (block_if _ _ _ _ _ _ (n_ofZ 1 <?! t)) by (eapply ev_cmp; [evt|evt|reflexivity]).
    destruct (n_ofZ 1 <?! t).
    + destruct (run_phis "Phi" q (fun j => e_high q j) (fun j => PFlt ((n_ofZ 3 *! Ad j 0 +! n_ofZ 2 *! Ad j 1 +! Ad j 2) *! (t -! n_ofZ 1) +! (Ad j 0 +! Ad j 1 +! Ad j 2 +! Ad j 3))) Inv E1 h HI) as (E2 & -> & F2 & _ & W).
      { intros E2 j Hj (A & (P0 & P1 & P2 & P3) & B & C). unfold e_high. evt. }
      { repeat split; auto; apply Hp1. }
      exists E2. split; auto. split; auto. eapply frame1_trans; eauto.
    + destruct (run_phis "Phi" q (fun j => e_in Adx q j) (fun j => PFlt (Ad j 0 *! (t *! t *! t) +! Ad j 1 *! (t *! t) +! Ad j 2 *! t +! Ad j 3 *! n_ofZ 1)) Inv E1 h HI) as (E2 & -> & F2 & _ & W).
      { intros E2 j Hj (A & (P0 & P1 & P2 & P3) & B & C). unfold e_in. evt. }
      { repeat split; auto; apply Hp1. }
      exists E2. split; auto. split; auto. eapply frame1_trans; eauto.
Qed.

Lemma run_dphi q E h t dv : (q < 10)%nat -> powP E q t -> E (nm "dinv" q) = Some (PFlt dv) -> E "dAd"%string = None ->
  exists E', block (s_dphi q) E h = Ok (Nxt, E', h) /\ frame1 ["dPhi"%string] q E E' /\ phiP "dPhi" E' q (g_dphi t dv).
Proof.
  intros Hq Hp Hdv Hd. unfold s_dphi.
  pose (Inv := fun E : env T => E (nm "dinv" q) = Some (PFlt dv) /\ powP E q t /\ E "dAd"%string = None).
  assert (HI : forall E j v, (j < 4)%nat -> Inv E -> Inv (upd E (nm2 "dPhi" q j) v)).
  { intros E1 j v Hj (A & (P0 & P1 & P2 & P3) & B). repeat split; lk; auto. }
  destruct (run_phis "dPhi" q (fun j => EBin "*" (e_in dAdx q j) (V "dinv" q)) (fun j => PFlt (g_dphi t dv j)) Inv E h HI) as (E2 & B2 & F2 & _ & W).
  { intros E2 j Hj (A & (P0 & P1 & P2 & P3) & B). unfold e_in, g_dphi. evt. }
  { repeat split; auto; apply Hp. }
  exists E2. auto.
Qed.

(** ** All the dimensions *)
Ltac unwritten := intros; cbn [In app cell_names dim_names] in *;
  repeat match goal with H : _ \/ _ |- _ => destruct H | H : False |- _ => destruct H end; subst; neq.
Lemma frame_get ps E E' x v : frame ps E E' ->
  (forall p q, In p ps -> (q < 10)%nat -> x <> nm p q) ->
  (forall p q j, In p ps -> (q < 10)%nat -> (j < 4)%nat -> x <> nm2 p q j) -> E x = v -> E' x = v.
Proof. intros F A B <-. apply F; auto. Qed.
Lemma frame1_get ps q E E' x v : frame1 ps q E E' ->
  (forall p, In p ps -> x <> nm p q) -> (forall p j, In p ps -> (j < 4)%nat -> x <> nm2 p q j) -> E x = v -> E' x = v.
Proof. intros F A B <-. apply F; auto. Qed.
Ltac fr F := eapply (frame_get _ _ _ _ _ F); [unwritten|unwritten|].
Ltac fr1 F := eapply (frame1_get _ _ _ _ _ _ F); [unwritten|unwritten|].

Lemma nth_cell : forall (X : list T) (D : list (Z * T * T)) q c, nth_error (map2 g_cell X D) q = Some c ->
  (q < List.length X)%nat /\ (q < List.length D)%nat /\ c = g_cell (nth q X (n_ofZ 0)) (nth q D (0, n_ofZ 0, n_ofZ 0)).
Proof.
  induction X as [|x X IH]; intros [|D1 DD] [|q] c H; try discriminate; cbn in * .
  - injection H as <-. repeat split; lia.
  - apply IH in H as (A & B & C). repeat split; auto; lia.
Qed.

Section Point.
Variables (d : nat) (D : list (Z * T * T)) (X : list T).
Hypothesis Hd : (d <= 10)%nat.
Hypothesis HD : List.length D = d.
Hypothesis HX : List.length X = d.
Let D0 : Z * T * T := (0, n_ofZ 0, n_ofZ 0).
Definition Dq (q : nat) := nth q D D0.
Definition Xq (q : nat) := nth q X (n_ofZ 0).
Definition tq (q : nat) := cell_t (Xq q) (Dq q).

Definition dimsE (E : env T) : Prop := forall q, (q < d)%nat -> dimP E q (Dq q).
Definition xsE (E : env T) : Prop := forall q, (q < d)%nat -> E (nm "x" q) = Some (PFlt (Xq q)).
Definition tabE (E : env T) : Prop := E "Ad"%string = None /\ E "dAd"%string = None.

Lemma dimsE_frame ps E E' : frame ps E E' -> (forall p, In p ps -> In p (cell_names ++ ["tp"; "Phi"; "dPhi"; "x"]%string)) -> dimsE E -> dimsE E'.
Proof.
  intros F0 Hi H q Hq. assert (F := frame_weak _ _ _ _ Hi F0). destruct (H q Hq) as (A & B & C).
  split; [|split]; fr F; auto.
Qed.
Lemma xsE_frame ps E E' : frame ps E E' -> (forall p, In p ps -> In p (cell_names ++ ["tp"; "Phi"; "dPhi"; "M"; "start"; "dinv"]%string)) -> xsE E -> xsE E'.
Proof.
  intros F0 Hi H q Hq. assert (F := frame_weak _ _ _ _ Hi F0). fr F; auto.
Qed.
Lemma tabE_frame ps E E' : frame ps E E' -> (forall p, In p ps -> In p (cell_names ++ ["tp"; "Phi"; "dPhi"; "x"; "M"; "start"; "dinv"]%string)) -> tabE E -> tabE E'.
Proof.
  intros F0 Hi [A B]. assert (F := frame_weak _ _ _ _ Hi F0). split; fr F; auto.
Qed.

Definition ws (sel : list T * list T -> list T) (p : string) (E : env T) : Prop :=
  forall q c, nth_error (map2 g_cell X D) q = Some c -> phiP p E q (fun j => nth (Z.to_nat j) (sel (snd c)) (n_ofZ 0)).
Definition isE (E : env T) : Prop :=
  forall q c, nth_error (map2 g_cell X D) q = Some c -> E (nm "i" q) = Some (PInt (fst c)).

Lemma run_cells E h : dimsE E -> xsE E -> tabE E ->
  exists E', block (s_cells d) E h = Ok (Nxt, E', h) /\ frame (cell_names ++ ["tp"; "Phi"]%string) E E' /\
    isE E' /\ ws fst "Phi" E' /\ (forall q, (q < d)%nat -> powP E' q (tq q)).
Proof.
  intros HDm HXs HT. unfold s_cells. rewrite block_app.
  destruct (block_family cell_names s_cell (fun E q => cellP E q (cell_i (Xq q) (Dq q)) (tq q)) (fun E => dimsE E /\ xsE E) d Hd) with (E := E) (h := h)
    as (E1 & -> & F1 & C1).
  { intros q E0 E0' Hq F q' Hq' Hn [A B]. split; fr1 F; auto. }
  { intros E0 E0' F [A B]. split; [eapply dimsE_frame|eapply xsE_frame]; eauto; cbn; tauto. }
  { intros q E0 h0 Hq [A B]. apply run_cell; auto. lia. }
  { auto. }
  cbn [bind]. rewrite block_app.
  destruct (block_family ["tp"%string] s_pow (fun E q => powP E q (tq q)) (fun E => forall q, (q < d)%nat -> cellP E q (cell_i (Xq q) (Dq q)) (tq q)) d Hd) with (E := E1) (h := h)
    as (E2 & -> & F2 & C2).
  { intros q E0 E0' Hq F q' Hq' Hn (A & B & C & K). repeat split; fr1 F; auto. }
  { intros E0 E0' F H q Hq. destruct (H q Hq) as [A B]. split; fr F; auto. }
  { intros q E0 h0 Hq H. apply run_pow; [lia|]. apply H; auto. }
  { auto. }
  cbn [bind].
  assert (C1' : forall q, (q < d)%nat -> cellP E2 q (cell_i (Xq q) (Dq q)) (tq q)).
  { intros q Hq. destruct (C1 q Hq) as [A B]. split; fr F2; auto. }
  assert (T2 : tabE E2).
  { eapply tabE_frame; [exact F2|cbn; tauto|]. eapply tabE_frame; [exact F1|cbn; tauto|auto]. }
  destruct (block_family ["Phi"%string] s_phi (fun E q => phiP "Phi" E q (g_phi (tq q)))
    (fun E => (forall q, (q < d)%nat -> E (nm "t" q) = Some (PFlt (tq q)) /\ powP E q (tq q)) /\ tabE E) d Hd) with (E := E2) (h := h)
    as (E3 & -> & F3 & C3).
  { intros q E0 E0' Hq F q' Hq' Hn A j Hj. fr1 F; auto. }
  { intros E0 E0' F [H H']. split.
    - intros q Hq. destruct (H q Hq) as [A (P0 & P1 & P2 & P3)]. repeat split; fr F; auto.
    - eapply tabE_frame; [exact F|cbn; tauto|auto]. }
  { intros q E0 h0 Hq [H [HA HB]]. destruct (H q Hq). apply run_phi; auto; lia. }
  { split; auto. intros q Hq. split; [apply C1'|apply C2]; auto. }
  exists E3. split; auto. split; [|split; [|split]].
  - eapply frame_trans; [|eapply frame_trans]; [eapply frame_weak; [|exact F1]|eapply frame_weak; [|exact F2]|eapply frame_weak; [|exact F3]];
      intros p; cbn; tauto.
  - intros q c Hc. apply nth_cell in Hc as (A & B & ->). rewrite g_cell_it. cbn [fst]. fr F3. apply C1'. lia.
  - intros q c Hc. apply nth_cell in Hc as (A & B & ->). rewrite g_cell_it. cbn [fst snd]. intros j Hj. rewrite C3 by lia.
    do 4 (destruct j as [|j]; [reflexivity|]). lia.
  - intros q Hq. destruct (C2 q Hq) as (P0 & P1 & P2 & P3). repeat split; fr F3; auto.
Qed.

Lemma run_dphis E h : dimsE E -> tabE E -> (forall q, (q < d)%nat -> powP E q (tq q)) ->
  exists E', block (flat_map s_dphi (dims d)) E h = Ok (Nxt, E', h) /\ frame ["dPhi"]%string E E' /\ ws snd "dPhi" E'.
Proof.
  intros HDm HT HP.
  destruct (block_family ["dPhi"%string] s_dphi (fun E q => phiP "dPhi" E q (g_dphi (tq q) (snd (Dq q))))
    (fun E => (forall q, (q < d)%nat -> E (nm "dinv" q) = Some (PFlt (snd (Dq q))) /\ powP E q (tq q)) /\ tabE E) d Hd) with (E := E) (h := h)
    as (E3 & B3 & F3 & C3).
  { intros q E0 E0' Hq F q' Hq' Hn A j Hj. fr1 F; auto. }
  { intros E0 E0' F [H H']. split.
    - intros q Hq. destruct (H q Hq) as [A (P0 & P1 & P2 & P3)]. repeat split; fr F; auto.
    - eapply tabE_frame; [exact F|cbn; tauto|auto]. }
  { intros q E0 h0 Hq [H [HA HB]]. destruct (H q Hq). apply run_dphi; auto; lia. }
  { split; auto. intros q Hq. split; [apply HDm|apply HP]; auto. }
  exists E3. split; auto. split; auto.
  intros q c Hc. apply nth_cell in Hc as (A & B & ->). rewrite g_cell_it. cbn [fst snd]. intros j Hj. rewrite C3 by lia.
  do 4 (destruct j as [|j]; [reflexivity|]). lia.
Qed.
End Point.

(** ** The nested sum *)
Lemma eval_sub E h a l : eval E (ESub a l) h = ('(x, h) <- eval E a h ;; '(i, h) <- subs G call E l h ;; v <- subscript h x i ;; Ok (v, h)).
Proof. reflexivity. Qed.
Definition plain (e : expr) : Prop := match e with ESlice _ _ _ | EEllipsis => False | _ => True end.
Lemma subs_ints E h l : forall zs, Forall2 (fun e z => plain e /\ ev E h e (PInt z)) l zs -> subs G call E l h = Ok (map SIx zs, h).
Proof.
  induction l as [|e l IH]; intros zs H; inversion H as [|? z ? zs' [Hp He] Hr]; subst; auto.
  cbn [subs]. fold (subs G call E). unfold ev in He. 
  destruct e; try (destruct Hp; fail); rewrite He; cbn [bind to_sidx]; rewrite (IH zs') by auto; reflexivity.
Qed.
Lemma all_ix_map zs : all_ix (map SIx zs) = Some zs.
Proof. induction zs as [|z zs IH]; auto. cbn. now rewrite IH. Qed.
Lemma subscript_full h loc (a : arr T) zs : nth_error h loc = Some (OF a) -> List.length zs = List.length (ashape a) ->
  Forall (fun z => 0 <= z) zs -> subscript h (PArr loc []) (map SIx zs) = (v <- aget a zs ;; Ok (PFlt v)).
Proof.
  intros H1 H2 H3. unfold subscript, array_of, hget. rewrite H1. cbn [bind]. rewrite all_ix_map, vshape_nil. cbn [oshape].
  rewrite H2, Nat.eqb_refl. cbn [vmerge]. rewrite wraps_pos; auto.
Qed.
Lemma store_full h loc (a : arr T) zs v : nth_error h loc = Some (OF a) -> List.length zs = List.length (ashape a) ->
  Forall (fun z => 0 <= z) zs -> store h (PArr loc []) (map SIx zs) (PFlt v) = (a' <- aset a zs v ;; Ok (hset h loc (OF a'))).
Proof.
  intros H1 H2 H3. unfold store, hget. rewrite H1. cbn [bind]. rewrite all_ix_map, vshape_nil. cbn [oshape].
  rewrite H2, Nat.eqb_refl. cbn [vmerge]. rewrite wraps_pos; auto. unfold oset. destruct (aset a zs v); reflexivity.
Qed.

Lemma map2_length {A B C} (f : A -> B -> C) l m : List.length (map2 f l m) = Nat.min (List.length l) (List.length m).
Proof. revert m. induction l as [|a l IH]; intros [|b m]; cbn; auto. Qed.
Lemma skipn_nth_error {A} (l : list A) : forall m x, nth_error l m = Some x -> skipn m l = x :: skipn (S m) l.
Proof. induction l as [|a l IH]; intros [|m] x H; try discriminate; cbn in H |- *; [now injection H as ->|]. now apply IH. Qed.
Lemma map2_add_snoc inds : forall l i z, nth_error l (List.length inds) = Some i ->
  map2 Z.add l (inds ++ [z]) = map2 Z.add l inds ++ [i + z].
Proof.
  induction inds as [|y inds IH]; intros [|a l] i z H; try discriminate; cbn in H |- * .
  - injection H as ->. destruct l; reflexivity.
  - f_equal. now apply IH.
Qed.
Lemma map2_add_pos inds : Forall (fun z => 0 <= z) inds -> forall l, Forall (fun z => 0 <= z) l -> Forall (fun z => 0 <= z) (map2 Z.add l inds).
Proof.
  induction 1 as [|z inds Hz H IH]; intros l Hl; inversion Hl; subst; cbn; constructor; auto; try lia.
Qed.

Lemma bmul h x y : binop (NT := NT) h "*" (PFlt x) (PFlt y) = Ok (PFlt (x *! y)).
Proof. reflexivity. Qed.
Lemma badd h x y : binop (NT := NT) h "+" (PFlt x) (PFlt y) = Ok (PFlt (x +! y)).
Proof. reflexivity. Qed.

Section Sum.
Variables (d : nat) (kb : bool) (w : nat -> nat -> string) (E : env T) (h : heap T) (loc : nat) (coefs : arr T)
  (W : list (list T)) (is_ suf : list Z).
Hypothesis HW : List.length W = d.
Hypothesis Hw : forall q hl, nth_error W q = Some hl -> List.length hl = 4%nat /\
  forall j, (j < 4)%nat -> E (w q j) = Some (PFlt (nth j hl (n_ofZ 0))).
Hypothesis Hi : List.length is_ = d.
Hypothesis Hiv : forall q i, nth_error is_ q = Some i -> E (nm "i" q) = Some (PInt i) /\ 0 <= i.
Hypothesis Hc : E "coefs"%string = Some (PArr loc []).
Hypothesis Hh : nth_error h loc = Some (OF coefs).
Hypothesis Hr : List.length (ashape coefs) = (d + List.length suf)%nat.
Hypothesis Hk : if kb then exists k, suf = [k] /\ 0 <= k /\ E "k"%string = Some (PInt k) else suf = [].

Lemma run_sum : forall n m idxE inds, (m + n = d)%nat -> List.length inds = m ->
  Forall2 (fun e z => plain e /\ ev E h e (PInt z)) idxE (map2 Z.add is_ inds) -> Forall (fun z => 0 <= z) inds ->
  eval E (e_sum kb w m n idxE) h = (v <- trex (skipn m W) (fun inds => aget coefs (map2 Z.add is_ inds ++ suf)) inds ;; Ok (PFlt v, h)).
Proof.
  induction n as [|n IH]; intros m idxE inds Hm Hl HF Hp.
  - rewrite skipn_all2 by lia. cbn [trex e_sum]. rewrite eval_sub. rewrite (eval_name _ _ _ _ Hc). cbn [bind].
    rewrite (subs_ints E h _ (map2 Z.add is_ inds ++ suf)).
    + cbn [bind]. rewrite (subscript_full h loc coefs); auto.
      * destruct (aget _ _); reflexivity.
      * rewrite app_length, map2_length, Hr. lia.
      * apply Forall_app. split.
        -- assert (Hn : Forall (fun i => 0 <= i) is_).
           { apply Forall_forall. intros i Hin. apply In_nth_error in Hin as (q & Hq). apply (Hiv q i Hq). }
           now apply map2_add_pos.
        -- destruct kb; [destruct Hk as (k & -> & A & B); auto|rewrite Hk; auto].
    + apply Forall2_app; auto. destruct kb.
      * destruct Hk as (k & -> & A & B). constructor; auto. split; [cbn; auto|apply ev_name; auto].
      * rewrite Hk. constructor.
  - assert (Hm' : (m < List.length W)%nat) by lia.
    destruct (nth_error W m) as [hl|] eqn:EW; [|apply nth_error_None in EW; lia].
    destruct (Hw m hl EW) as [Hl4 Hv].
    assert (Es : skipn m W = hl :: skipn (S m) W).
    { apply skipn_nth_error; auto. }
    destruct (nth_error is_ m) as [im|] eqn:Ei; [|apply nth_error_None in Ei; lia].
    destruct (Hiv m im Ei) as [Him Hpos].
    assert (IHj : forall j, (j < 4)%nat -> eval E (e_sum kb w (S m) n (idxE ++ [EBin "+" (V "i" m) (I j)])) h =
      (v <- trex (skipn (S m) W) (fun inds => aget coefs (map2 Z.add is_ inds ++ suf)) (inds ++ [Z.of_nat j]) ;; Ok (PFlt v, h))).
    { intros j Hj. apply IH; try lia.
      - rewrite app_length. cbn. lia.
      - assert (Em : map2 Z.add is_ (inds ++ [Z.of_nat j]) = map2 Z.add is_ inds ++ [im + Z.of_nat j]).
        { apply map2_add_snoc. now rewrite Hl. }
        rewrite Em. apply Forall2_app; auto. constructor; auto. split; [exact Logic.I|].
        eapply ev_bin; [apply ev_V; eauto|apply ev_I|reflexivity].
      - apply Forall_app. split; auto. constructor; auto. lia. }
    rewrite Es. destruct hl as [|h0 [|h1 [|h2 [|h3 [|]]]]]; try discriminate.
    cbn [e_sum trex enum_from mapM fst snd].
    pose proof (Hv 0%nat ltac:(lia)) as N0. pose proof (Hv 1%nat ltac:(lia)) as N1.
    pose proof (Hv 2%nat ltac:(lia)) as N2. pose proof (Hv 3%nat ltac:(lia)) as N3. cbn [nth] in N0, N1, N2, N3.
    cbn [map js sum_left fold_left PySem.eval].
    rewrite (lookup_in _ _ _ _ N0). cbn [bind]. rewrite (IHj 0%nat) by lia. cbn [bind Z.add Pos.add Z.of_nat Pos.of_succ_nat Pos.succ].
    destruct (trex _ _ (inds ++ [0])) as [v0|]; cbn [bind]; [|reflexivity]. rewrite bmul. cbn [bind]. 
    rewrite (lookup_in _ _ _ _ N1). cbn [bind]. rewrite (IHj 1%nat) by lia. cbn [bind Z.add Pos.add Z.of_nat Pos.of_succ_nat Pos.succ].
    destruct (trex _ _ (inds ++ [1])) as [v1|]; cbn [bind]; [|reflexivity]. rewrite bmul. cbn [bind]. rewrite badd. cbn [bind].
    rewrite (lookup_in _ _ _ _ N2). cbn [bind]. rewrite (IHj 2%nat) by lia. cbn [bind Z.add Pos.add Z.of_nat Pos.of_succ_nat Pos.succ].
    destruct (trex _ _ (inds ++ [2])) as [v2|]; cbn [bind]; [|reflexivity]. rewrite bmul. cbn [bind]. rewrite badd. cbn [bind].
    rewrite (lookup_in _ _ _ _ N3). cbn [bind]. rewrite (IHj 3%nat) by lia. cbn [bind Z.add Pos.add Z.of_nat Pos.of_succ_nat Pos.succ].
    destruct (trex _ _ (inds ++ [3])) as [v3|]; cbn [bind]; reflexivity.
Qed.
Lemma run_sum0 : eval E (e_sum kb w 0 d []) h = (v <- trex W (fun inds => aget coefs (map2 Z.add is_ inds ++ suf)) [] ;; Ok (PFlt v, h)).
Proof. apply (run_sum d 0%nat [] []); auto. destruct is_; constructor. Qed.
End Sum.

End Sem.
