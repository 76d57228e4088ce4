(** The passes of prefilter_cubic.py: loops around the 1-d solver. *)
From Coq Require Import ZArith List Bool String Lia.
From Verif Require Import Base BaseFacts SplineModel PrefilterModel PySyntax PySem SpecText PySemFacts PyArr SrcPrefilterCubic PrefCore.
Import ListNotations.
Open Scope list_scope.
Open Scope Z_scope.
Open Scope num_scope.

(** ** The model depends on the lines pointwise *)
Section Ext.
Context {T : Type} {NT : Num T}.
Lemma foldM_ext {S A} (f g : S -> A -> res S) l : (forall s a, f s a = g s a) -> forall s, foldM f l s = foldM g l s.
Proof. intros H. induction l as [|a l IH]; intros s; cbn; auto. rewrite H. destruct (g s a); cbn; auto. Qed.
Lemma solve_ext (b C : arr T) ln ln' nc : (forall i, ln i = ln' i) -> solve_deriv_interp_1d b C ln nc = solve_deriv_interp_1d b C ln' nc.
Proof.
  intros H. unfold solve_deriv_interp_1d. apply bind_ext. intros b1 _. apply bind_ext. intros b2 _. apply bind_ext. intros b3 _.
  apply bind_ext. intros v _. rewrite H. apply bind_ext. intros C1 _.
  rewrite (foldM_ext (back_row b3 ln) (back_row b3 ln')) by (intros; unfold back_row; now rewrite !H).
  apply bind_ext. intros C2 _. now rewrite !H.
Qed.
Lemma find_ext del (data data' : Z -> res T) (C : arr T) ln ln' nc b : (forall i, ln i = ln' i) -> (forall i, data i = data' i) ->
  find_coefs_1d del data C ln nc b = find_coefs_1d del data' C ln' nc b.
Proof.
  intros H1 H2. unfold find_coefs_1d. apply bind_ext. intros M _. cbv zeta. unfold fill_bands.
  assert (X : forall b, foldM (fun b i => foldM (fun b j => b <- bset b (i + 1) j (basis j) ;; v <- data i ;; bset b (i + 1) 3 v) (zrange 3) b) (zrange (M - 2)) b
    = foldM (fun b i => foldM (fun b j => b <- bset b (i + 1) j (basis j) ;; v <- data' i ;; bset b (i + 1) 3 v) (zrange 3) b) (zrange (M - 2)) b).
  { apply foldM_ext. intros s i. apply foldM_ext. intros s' j. now rewrite H2. }
  rewrite !bind_assoc. apply bind_ext. intros b1 _. rewrite X. apply bind_ext. intros b2 _. now apply solve_ext.
Qed.
(** Shapes are kept. *)
Lemma foldM_inv {S A} (f : S -> A -> res S) (I : S -> Prop) l : (forall s a s', I s -> f s a = Ok s' -> I s') ->
  forall s s', I s -> foldM f l s = Ok s' -> I s'.
Proof.
  intros H. induction l as [|a l IH]; intros s s' Hs E; cbn in E; [congruence|]. destruct (f s a) as [s1|] eqn:F; cbn in E; [|congruence].
  apply (IH s1 s'); [apply (H s a s1); auto|exact E].
Qed.
Lemma aset_shape (a a' : arr T) idx v : aset a idx v = Ok a' -> ashape a' = ashape a.
Proof. intros H. now apply aset_inv in H as [_ ->]. Qed.
Lemma find_shape del data (C : arr T) ln nc b p : find_coefs_1d del data C ln nc b = Ok p -> ashape (fst p) = ashape b /\ ashape (snd p) = ashape C.
Proof.
  assert (B1 : forall b r c v b', bset b r c v = Ok b' -> ashape b' = ashape b) by (intros; eapply aset_shape; eauto).
  assert (B2 : forall b r c r' c' b', bidiv b r c r' c' = Ok b' -> ashape b' = ashape b).
  { intros b0 r c r' c' b' H. unfold bidiv in H. destruct (bget b0 r c); cbn in H; [|congruence]. destruct (bget b0 r' c'); cbn in H; [|congruence].
    destruct (divE _ _); cbn in H; [|congruence]. eauto. }
  assert (B3 : forall b r c r1 c1 r2 c2 b', bisubmul b r c r1 c1 r2 c2 = Ok b' -> ashape b' = ashape b).
  { intros b0 r c r1 c1 r2 c2 b' H. unfold bisubmul in H. destruct (bget b0 r c); cbn in H; [|congruence]. destruct (bget b0 r1 c1); cbn in H; [|congruence].
    destruct (bget b0 r2 c2); cbn in H; [|congruence]. eauto. }
  unfold find_coefs_1d. intros H. apply bind_ok in H as (M & _ & H). cbv zeta in H. apply bind_ok in H as (b1 & F & H).
  assert (E1 : ashape b1 = ashape b).
  { unfold fill_bands in F. apply bind_ok in F as (b0 & F0 & F). transitivity (ashape b0).
    - eapply (foldM_inv _ (fun x => ashape x = ashape b0)); [|reflexivity|exact F]. intros x i x' Hx G.
      eapply (foldM_inv _ (fun x => ashape x = ashape b0)); [|exact Hx|exact G]. intros y j y' Hy K.
      apply bind_ok in K as (y1 & K1 & K). apply bind_ok in K as (v & _ & K). apply B1 in K1, K. congruence.
    - eapply (foldM_inv _ (fun x => ashape x = ashape b)); [|reflexivity|exact F0]. intros x i x' Hx G.
      apply bind_ok in G as (y1 & K1 & K). apply B1 in K1, K. congruence. }
  unfold solve_deriv_interp_1d in H. cbv zeta in H. apply bind_ok in H as (b2 & F2 & H).
  assert (E2 : ashape b2 = ashape b1).
  { unfold solve_first in F2. repeat match type of F2 with bind _ _ = _ => let X := fresh in apply bind_ok in F2 as (? & X & F2); first [apply B1 in X|apply B2 in X|apply B3 in X] end.
    apply B1 in F2. congruence. }
  apply bind_ok in H as (b3 & F3 & H).
  assert (E3 : ashape b3 = ashape b2).
  { eapply (foldM_inv _ (fun x => ashape x = ashape b2)); [|reflexivity|exact F3]. intros x i x' Hx G. unfold solve_row in G.
    repeat match type of G with bind _ _ = _ => let X := fresh in apply bind_ok in G as (? & X & G); first [apply B1 in X|apply B2 in X|apply B3 in X] end.
    apply B1 in G. congruence. }
  apply bind_ok in H as (b4 & F4 & H).
  assert (E4 : ashape b4 = ashape b3).
  { unfold solve_last in F4. repeat match type of F4 with bind _ _ = _ => let X := fresh in apply bind_ok in F4 as (? & X & F4); first [apply B1 in X|apply B2 in X|apply B3 in X] end.
    apply B1 in F4. congruence. }
  apply bind_ok in H as (v & _ & H). apply bind_ok in H as (C1 & G1 & H). apply bind_ok in H as (C2 & G2 & H).
  assert (E5 : ashape C2 = ashape C1).
  { eapply (foldM_inv _ (fun x => ashape x = ashape C1)); [|reflexivity|exact G2]. intros x i x' Hx G. unfold back_row in G.
    do 3 (apply bind_ok in G as (? & _ & G)). apply aset_shape in G. congruence. }
  do 5 (apply bind_ok in H as (? & _ & H)). apply bind_ok in H as (C3 & G3 & H). apply aset_shape in G1, G3. injection H as <-. cbn. split; congruence.
Qed.
End Ext.

Section Nest.
Context {T : Type} {NT : Num T}.
Variable G : env T.
Variable call : string -> list (val T) -> list (string * val T) -> heap T -> res (val T * heap T).
Variable fuel : nat.
Notation eval := (eval G call).
Notation exec := (exec G call fuel).
Notation block := (block G call fuel).

(** [for x in range(n): ...], nested. *)
Fixpoint loops (vs : list (string * string)) (inner : list stmt) : list stmt :=
  match vs with
  | [] => inner
  | (x, n) :: r => [SFor (EName x) (ECall (EName "range") [EName n] []) (loops r inner)]
  end.
Definition agree (xs : list string) (E E' : env T) : Prop := forall x, ~ In x xs -> E' x = E x.
Lemma agree_refl xs E : agree xs E E. Proof. intros x _. auto. Qed.
Lemma agree_trans xs E1 E2 E3 : agree xs E1 E2 -> agree xs E2 E3 -> agree xs E1 E3.
Proof. intros H1 H2 x Hx. rewrite H2, H1; auto. Qed.
Lemma agree_upd xs E x v : In x xs -> agree xs E (upd E x v).
Proof. intros H y Hy. apply upd_other. intros ->. auto. Qed.
Lemma agree_sub xs ys E E' : incl xs ys -> agree xs E E' -> agree ys E E'.
Proof. intros H1 H2 x Hx. apply H2. auto. Qed.

Fixpoint bound (E : env T) (xs : list string) (idx : list Z) : Prop :=
  match xs, idx with
  | [], [] => True
  | x :: xs, i :: idx => E x = Some (PInt i) /\ bound E xs idx
  | _, _ => False
  end.
Lemma bound_agree xs ys : forall idx E E', agree ys E E' -> (forall x, In x xs -> ~ In x ys) -> bound E xs idx -> bound E' xs idx.
Proof.
  induction xs as [|x xs IH]; intros [|i idx] E E' HA HD H; cbn in *; auto. destruct H as [H1 H2]. split.
  - rewrite HA; auto. 
  - eapply IH; eauto.
Qed.
(** Nested loops over names bound to the sizes.  [all]: every loop variable. *)
Lemma sim_nest {S} (all : list string) (inner : list stmt) (E0 : env T) (Q : S -> heap T -> Prop) :
  forall (vs : list (string * string)) (sizes : list Z) (f : list Z -> S -> res S) (P : env T -> Prop),
  incl (map fst vs) all -> NoDup (map fst vs) ->
  Forall2 (fun v n => E0 (snd v) = Some (PInt n) /\ ~ In (snd v) all) vs sizes ->
  (forall E E', agree (map fst vs) E E' -> P E -> P E') ->
  (forall idx s E h, inb sizes idx = true -> agree all E0 E -> P E -> bound E (map fst vs) idx -> Q s h ->
     sim (f idx s) (block inner E h) (fun s' E' h' => E' = E /\ Q s' h')) ->
  forall s E h, agree all E0 E -> P E -> Q s h ->
  sim (nest sizes f s) (block (loops vs inner) E h) (fun s' E' h' => agree all E0 E' /\ P E' /\ Q s' h').
Proof.
  induction vs as [|[x n] vs IH]; intros sizes f P Hincl Hnd HF HP Hin s E h HE HPE HQ.
  - inversion HF; subst. cbn [nest loops]. eapply sim_weak; [apply Hin; cbn; auto|]. intros s' E' h' (-> & H). auto.
  - inversion HF as [|? sz ? sizes' [Hn Hna] HF']; subst. cbn [nest loops map fst snd] in *. inversion Hnd as [|? ? Hx Hnd']; subst.
    apply sim_one. apply (sim_for _ _ _ (fun s i => nest sizes' (fun r => f (i :: r)) s) PInt).
    + cbn. unfold lookup. rewrite (HE n Hna), Hn. reflexivity.
    + intros s1 i E1 h1 Hi (A1 & P1 & Q1). apply zrange_In in Hi.
      eapply sim_weak.
      * apply (IH sizes' (fun r => f (i :: r)) (fun E => P E /\ E x = Some (PInt i))).
        -- intros y Hy. apply Hincl. right; auto.
        -- auto.
        -- auto.
        -- intros E2 E3 A [H1 H2]. split; [eapply HP; eauto; eapply agree_sub; [|exact A]; apply incl_tl, incl_refl|].
           rewrite A; auto.
        -- intros idx s2 E2 h2 Hidx A2 [P2 X2] B2 Q2. apply Hin; auto.
           ++ cbn [inb]. rewrite Hidx. lia.
           ++ cbn [bound]. auto.
        -- eapply agree_trans; [exact A1|]. apply agree_upd. apply Hincl. now left.
        -- split; [|apply upd_same]. eapply HP; [|exact P1]. apply agree_upd. now left.
        -- exact Q1.
      * intros s2 E2 h2 (A2 & [P2 _] & Q2). auto.
    + auto.
Qed.

Lemma Forall2_imp {A B} (P Q : A -> B -> Prop) l m : (forall a b, P a b -> Q a b) -> Forall2 P l m -> Forall2 Q l m.
Proof. intros H F. induction F; auto. Qed.
(** ** One pass *)
Section Pass.
Variable h0 : heap T.
Variable kc ks : nat.
Variables (mname dn : string) (vs : list (string * string)) (eS eC : expr).
Variables (M : Z) (del : T) (sizes : list Z) (ns : nat) (suf : list Z).
Variables (C0 D : arr T).
Variable own : bool.                       (* the data are the coefficients themselves *)
Let ln idx i := firstn ns idx ++ [i] ++ skipn ns idx ++ suf.
Let kb := List.length h0.
Hypothesis HM : 1 <= M.
Hypothesis Hkc : (kc < List.length h0)%nat.
Hypothesis Hks : (ks < List.length h0)%nat.
Hypothesis Hsrc : if own then ks = kc else ks <> kc /\ nth_error h0 ks = Some (OF D).
(** A 1-d view with the given line. *)
Definition is_line (a : arr T) (w : list (option Z)) (idx : list Z) : Prop :=
  (forall i, vmerge w [i] = ln idx i) /\ exists m, vshape w (ashape a) = [m].
Let Q (s : arr T * arr T) (h : heap T) : Prop :=
  h = hset h0 kc (OF (snd s)) ++ [OF (fst s)] /\ ashape (fst s) = [M + 2; 4] /\ ashape (snd s) = ashape C0.
Hypothesis Hfind : forall h kd wd wc D C b m,
  kb <> kc -> kb <> kd -> nth_error h kd = Some (OF D) -> nth_error h kc = Some (OF C) -> nth_error h kb = Some (OF b) ->
  vshape wd (ashape D) = [m] -> vshape wc (ashape C) = [M + 2] -> ashape b = [M + 2; 4] ->
  call "find_coefs_1d"%string [PFlt del; PArr kd wd; PArr kc wc; PArr kb []] [] h
  = (p <- find_coefs_1d del (fun i => aget D (vmerge wd [i])) C (fun i => vmerge wc [i]) (M + 2) b ;;
     Ok (PNone, hset (hset h kb (OF (fst p))) kc (OF (snd p)))).

Lemma text_pass E : nth_error h0 kc = Some (OF C0) ->
  E mname = Some (PInt M) -> E dn = Some (PFlt del) -> NoDup (map fst vs) ->
  ~ In "bands"%string (map fst vs) -> ~ In mname (map fst vs) -> ~ In dn (map fst vs) -> dn <> "bands"%string ->
  Forall2 (fun v n => E (snd v) = Some (PInt n) /\ ~ In (snd v) ("bands"%string :: map fst vs)) vs sizes ->
  (forall idx C h E', inb sizes idx = true -> agree ("bands"%string :: map fst vs) E E' -> bound E' (map fst vs) idx ->
     ashape C = ashape C0 -> nth_error h kc = Some (OF C) -> (own = false -> nth_error h ks = Some (OF D)) ->
     exists w w', eval E' eC h = Ok (PArr kc w, h) /\ (forall i, vmerge w [i] = ln idx i) /\ vshape w (ashape C) = [M + 2] /\
       eval E' eS h = Ok (PArr ks w', h) /\ is_line (if own then C else D) w' idx) ->
  sim (nest sizes (fun idx (s : arr T * arr T) => let '(b, C) := s in
         find_coefs_1d del (fun i => aget (if own then C else D) (ln idx i)) C (ln idx) (M + 2) b) (azeros [M + 2; 4], C0))
      (block (SAssign [EName "bands"] (ECall (EAttr (EName "np") "zeros") [ETup [EBin "+" (EName mname) (EInt 2); EInt 4]] []) ::
              loops vs [SExpr (ECall (EName "find_coefs_1d") [EName dn; eS; eC; EName "bands"] [])]) E h0)
      (fun s E' h' => agree ("bands"%string :: map fst vs) E E' /\ h' = hset h0 kc (OF (snd s)) ++ [OF (fst s)] /\ ashape (snd s) = ashape C0).
Proof.
  intros HC HEM HEd Hnd Hb1 Hm1 Hd1 Hdb HF Hview.
  rewrite block_cons, exec_set.
  assert (X : eval E (ECall (EAttr (EName "np") "zeros") [ETup [EBin "+" (EName mname) (EInt 2); EInt 4]] []) h0
    = Ok (PArr kb [], h0 ++ [OF (azeros [M + 2; 4])])).
  { cbn. unfold lookup. rewrite HEM. reflexivity. }
  rewrite X. cbn [bind]. set (E1 := upd E "bands" (PArr kb [])).
  eapply sim_weak with (R := fun s E' h' => agree (map fst vs) E1 E' /\ True /\ Q s h').
  - apply (sim_nest _ _ E1 Q vs sizes _ (fun _ => True)); auto.
    + apply incl_refl.
    + eapply Forall2_imp; [|exact HF]. intros [x n] z [H1 H2]. cbn in *. split; [|tauto]. unfold E1. rewrite upd_other; auto.
    + intros idx [b C] E' h Hidx HA _ HB (-> & Sb & Sc). cbn [fst snd] in *. apply sim_one.
      assert (HA' : agree ("bands"%string :: map fst vs) E E').
      { intros x Hx. cbn [In] in Hx. rewrite HA by tauto. unfold E1. apply upd_other. intuition. }
      assert (Lh : List.length (hset h0 kc (OF C)) = kb) by apply hset_length.
      assert (N1 : nth_error (hset h0 kc (OF C) ++ [OF b]) kc = Some (OF C)).
      { rewrite nth_error_app1 by (rewrite hset_length; auto). now apply nth_hset_same. }
      assert (N2 : nth_error (hset h0 kc (OF C) ++ [OF b]) kb = Some (OF b)).
      { rewrite <- Lh. apply nth_new. }
      assert (N3 : own = false -> nth_error (hset h0 kc (OF C) ++ [OF b]) ks = Some (OF D)).
      { intros ->. destruct Hsrc as [Hn Hs]. rewrite nth_error_app1 by (rewrite hset_length; auto). rewrite nth_hset_other; auto. }
      destruct (Hview idx C _ E' Hidx HA' HB Sc N1 N3) as (w & w' & V1 & V2 & V3 & V4 & V5 & m & V6).
      assert (N4 : nth_error (hset h0 kc (OF C) ++ [OF b]) ks = Some (OF (if own then C else D))).
      { destruct own; [rewrite Hsrc; auto|auto]. }
      assert (Bd : E' "bands"%string = Some (PArr kb [])).
      { rewrite HA by auto. unfold E1. apply upd_same. }
      assert (Dd : E' dn = Some (PFlt del)).
      { rewrite HA' by (cbn; intuition). auto. }
      assert (XE : eval E' (ECall (EName "find_coefs_1d") [EName dn; eS; eC; EName "bands"] []) (hset h0 kc (OF C) ++ [OF b])
        = call "find_coefs_1d"%string [PFlt del; PArr ks w'; PArr kc w; PArr kb []] [] (hset h0 kc (OF C) ++ [OF b])).
      { rewrite eval_call by discriminate.
        rewrite (evals_cons _ _ _ _ _ _ (PFlt del) (hset h0 kc (OF C) ++ [OF b])) by (cbn; unfold lookup; now rewrite Dd).
        rewrite (evals_cons _ _ _ _ _ _ _ _ V4), (evals_cons _ _ _ _ _ _ _ _ V1).
        rewrite (evals_cons _ _ _ _ _ _ (PArr kb []) (hset h0 kc (OF C) ++ [OF b])) by (cbn; unfold lookup; now rewrite Bd).
        reflexivity. }
      assert (XX : exec (SExpr (ECall (EName "find_coefs_1d") [EName dn; eS; eC; EName "bands"] [])) E' (hset h0 kc (OF C) ++ [OF b])
        = ('(_, h) <- eval E' (ECall (EName "find_coefs_1d") [EName dn; eS; eC; EName "bands"] []) (hset h0 kc (OF C) ++ [OF b]) ;; Ok (Nxt, E', h))) by reflexivity.
      rewrite XX, XE. unfold kb in *.
      rewrite (Hfind _ ks w' w (if own then C else D) C b m); auto; [|lia|lia].
      assert (XF : find_coefs_1d del (fun i => aget (if own then C else D) (vmerge w' [i])) C (fun i => vmerge w [i]) (M + 2) b
        = find_coefs_1d del (fun i => aget (if own then C else D) (ln idx i)) C (ln idx) (M + 2) b).
      { apply find_ext; auto. intros i. now rewrite V5. }
      rewrite XF.
      destruct (find_coefs_1d del _ C (ln idx) (M + 2) b) as [[b' C']|] eqn:EF; cbn [bind sim]; [|reflexivity].
      eexists _, _. split; [reflexivity|]. split; [reflexivity|]. apply find_shape in EF as [F1 F2]. cbn [fst snd] in *.
      unfold Q. cbn [fst snd]. split; [|split; congruence].
      rewrite <- Lh, hset_app. rewrite hset_app1 by (rewrite hset_length; auto). now rewrite hset_hset.
    + apply agree_refl.
    + unfold Q. cbn [fst snd]. rewrite hset_same by auto. auto.
  - intros s E' h' (A & _ & Q1 & Q2 & Q3). split; auto. intros x Hx. cbn [In] in Hx. rewrite A by tauto. unfold E1. apply upd_other. intuition.
Qed.
End Pass.
End Nest.
