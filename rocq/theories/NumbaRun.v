(** Running the functions of eval_cubic_numba.py gives the hand-written model. *)
From Coq Require Import ZArith List Bool String Lia.
From Verif Require Import Base BaseFacts SplineModel GradModel NumbaModel PySyntax PySem SpecText PySemFacts NumbaGen NumbaText NumbaSem.
Import ListNotations.
Open Scope list_scope.
Open Scope Z_scope.
Open Scope num_scope.

Section Globals.
Context {T : Type} {NT : Num T}.
Hypothesis H6 : n_is0 (n_ofZ (T := T) 6) = false.
Let nocall : string -> list (val T) -> list (string * val T) -> heap T -> res (val T * heap T) := fun _ _ _ _ => Err NameErr.
Notation block0 := (block (T := T) empty nocall 0).

Definition A0 : arr T := mkArr [4; 4] (fun idx => match idx with
  | [i; j] => nth (Z.to_nat j) (nth (Z.to_nat i)
      [[frac6 (-1); frac6 3; frac6 (-3); frac6 1]; [frac6 3; frac6 (-6); frac6 0; frac6 4];
       [frac6 (-3); frac6 3; frac6 3; frac6 1]; [frac6 1; frac6 0; frac6 0; frac6 0]] []) (n_ofZ 0)
  | _ => n_ofZ 0 end).

Lemma ev_frac E h z : In z [-6; -3; -1; 0; 1; 3; 4] -> ev empty nocall E h (frac z) (PFlt (frac6 z)).
Proof.
  intros H. cbn in H. unfold ev, frac6.
  repeat (destruct H as [<-|H]; [cbn; unfold divE; change (literal 60 1) with (n_ofZ (T := T) 6); rewrite H6; reflexivity|]). destruct H.
Qed.

Lemma block_Ad l : block0 (firstn 8 numba_header ++ l) empty [] = block0 l (upd empty "Ad"%string (PArr 0 [])) [OF A0].
Proof.
  unfold numba_header. cbn [firstn app der_table]. 
  do 7 (rewrite block_cons; cbn [exec bind]).
  unfold set. rewrite block_cons, exec_set.
  assert (F : forall z, In z [-6; -3; -1; 0; 1; 3; 4] -> forall h, eval empty nocall empty (frac z) h = Ok (PFlt (frac6 z), h)).
  { intros z Hz h. apply ev_frac. auto. }
  assert (R : forall z1 z2 z3 z4, In z1 [-6; -3; -1; 0; 1; 3; 4] -> In z2 [-6; -3; -1; 0; 1; 3; 4] -> In z3 [-6; -3; -1; 0; 1; 3; 4] ->
     In z4 [-6; -3; -1; 0; 1; 3; 4] -> forall h, eval empty nocall empty (EList [frac z1; frac z2; frac z3; frac z4]) h
     = Ok (PTup [PFlt (frac6 z1); PFlt (frac6 z2); PFlt (frac6 z3); PFlt (frac6 z4)], h)).
  { intros z1 z2 z3 z4 H1 H2 H3 H4 h. rewrite eval_list.
    rewrite (evals_cons _ _ _ _ _ _ _ _ (F z1 H1 h)), (evals_cons _ _ _ _ _ _ _ _ (F z2 H2 h)),
      (evals_cons _ _ _ _ _ _ _ _ (F z3 H3 h)), (evals_cons _ _ _ _ _ _ _ _ (F z4 H4 h)). reflexivity. }
  rewrite eval_call by discriminate.
  assert (X : eval empty nocall empty (EList (map (fun r => EList (map frac r)) [[-1; 3; -3; 1]; [3; -6; 0; 4]; [-3; 3; 3; 1]; [1; 0; 0; 0]])) []
     = Ok (PTup (map (fun r => PTup (map (fun z => PFlt (frac6 z)) r)) [[-1; 3; -3; 1]; [3; -6; 0; 4]; [-3; 3; 3; 1]; [1; 0; 0; 0]]), [])).
  { rewrite eval_list. cbn [map]. do 4 (erewrite evals_cons; [|apply R; cbn; tauto]; cbn [bind]). reflexivity. }
  erewrite evals_cons; [|exact X]. reflexivity.
Qed.

Lemma block_der : exists E h o, block0 (der_table "dAd" "Ad" ++ der_table "d2Ad" "dAd") (upd empty "Ad"%string (PArr 0 [])) [OF A0] = Ok (Nxt, E, h) /\
  E "Ad"%string = Some (PArr 0 []) /\ E "dAd"%string = Some (PArr 1 []) /\ nth_error h 0 = Some (OF A0) /\ nth_error h 1 = Some (OF o) /\
  ashape o = [4; 4] /\ forall j c, (j < 4)%nat -> (c < 4)%nat -> acell o [Z.of_nat j; Z.of_nat c] = dAd (Z.of_nat j) (Z.of_nat c).
Proof.
  eexists _, _, _. split; [vm_compute; reflexivity|].
  split; [reflexivity|]. split; [reflexivity|]. split; [reflexivity|]. split; [reflexivity|]. split; [reflexivity|].
  intros j c Hj Hc. do 4 (destruct j as [|j]; [do 4 (destruct c as [|c]; [reflexivity|]); lia|]). lia.
Qed.

Lemma numba_program_split : numba_program = firstn 8 numba_header ++ ((der_table "dAd" "Ad" ++ der_table "d2Ad" "dAd") ++ skipn 12 numba_program).
Proof. reflexivity. Qed.

Definition GG : env T := globals numba_program.
Lemma GG_tables : exists o, GG "Ad"%string = Some (PLit (oview (OF A0) [])) /\ GG "dAd"%string = Some (PLit (oview (OF o) [])) /\ ashape o = [4; 4] /\
  forall j c, (j < 4)%nat -> (c < 4)%nat -> acell o [Z.of_nat j; Z.of_nat c] = dAd (Z.of_nat j) (Z.of_nat c).
Proof.
  destruct block_der as (E & h & o & B & E1 & E2 & N1 & N2 & So & Co). exists o.
  unfold GG, globals. rewrite numba_program_split, toplevel_app.
  rewrite (toplevel_block (firstn 8 numba_header) eq_refl empty [] (upd empty "Ad"%string (PArr 0 [])) [OF A0]).
  2:{ pose proof (block_Ad []) as X. rewrite app_nil_r in X. exact X. }
  rewrite toplevel_app.
  rewrite (toplevel_block (der_table "dAd" "Ad" ++ der_table "d2Ad" "dAd") eq_refl _ _ E h B).
  rewrite toplevel_defs by reflexivity. rewrite E1, E2. unfold freeze. rewrite N1, N2. auto.
Qed.

Lemma ev_Ad call E j c h : (j < 4)%nat -> (c < 4)%nat -> E "Ad"%string = None ->
  ev GG call E h (Adx j c) (PFlt (Ad (Z.of_nat j) (Z.of_nat c))).
Proof.
  intros Hj Hc HE. destruct GG_tables as (o & GA & _). unfold ev, Adx. cbn [eval]. unfold lookup. rewrite HE, GA.
  do 4 (destruct j as [|j]; [do 4 (destruct c as [|c]; [reflexivity|]); lia|]). lia.
Qed.
Lemma ev_dAd call E j c h : (j < 4)%nat -> (c < 4)%nat -> E "dAd"%string = None ->
  ev GG call E h (dAdx j c) (PFlt (dAd (Z.of_nat j) (Z.of_nat c))).
Proof.
  intros Hj Hc HE. destruct GG_tables as (o & _ & GA & So & Co). unfold ev, dAdx. cbn [eval]. unfold lookup. rewrite HE, GA.
  cbn [bind eval I to_sidx]. unfold subscript, array_of. cbn [bind all_ix oview]. rewrite !vshape_nil. cbn [oshape ashape]. rewrite ?vshape_nil, So.
  cbn [List.length Nat.eqb vmerge oget]. rewrite wraps_pos by (repeat constructor; lia).
  unfold aget. cbn [ashape acell vmerge]. rewrite (Co j c Hj Hc).
  replace (inb [4; 4] [Z.of_nat j; Z.of_nat c]) with true; [reflexivity|].
  do 4 (destruct j as [|j]; [do 4 (destruct c as [|c]; [reflexivity|]); lia|]). lia.
Qed.
End Globals.

Section Run.
Context {T : Type} {NT : Num T}.
Hypothesis H6 : n_is0 (n_ofZ (T := T) 6) = false.
Variable call : string -> list (val T) -> list (string * val T) -> heap T -> res (val T * heap T).
Variable fuel : nat.
Notation G := (GG (T := T)).
Notation eval := (eval G call).
Notation exec := (exec G call fuel).
Notation block := (block G call fuel).

(** Facts about names that no block touches. *)
Definition written := ["u"; "i"; "t"; "tp"; "Phi"; "dPhi"; "x"; "M"; "start"; "dinv"]%string.
Definition clean (x : string) : Prop :=
  (forall p q, In p written -> (q < 10)%nat -> x <> nm p q) /\ (forall p q j, In p written -> (q < 10)%nat -> (j < 4)%nat -> x <> nm2 p q j).
Definition names := ["a"; "b"; "orders"; "coefs"; "point"; "points"; "out"; "vals"; "dvals"; "N"; "n_vals"; "n"; "k"; "d"; "Ad"; "dAd"]%string.
Lemma names_clean x : In x names -> clean x.
Proof.
  intros H. split; intros; cbn [In names written] in *;
  repeat match goal with H : _ \/ _ |- _ => destruct H | H : False |- _ => destruct H end; subst; discriminate.
Qed.
Definition baseE (L : list (string * option (val T))) (E : env T) : Prop := forall x v, In (x, v) L -> In x names /\ E x = v.
Lemma baseE_frame ps L E E' : frame ps E E' -> incl ps written -> baseE L E -> baseE L E'.
Proof.
  intros F0 Hi H x v Hx. destruct (H x v Hx) as [Hn <-]. split; auto.
  destruct (names_clean x Hn) as [A B]. apply (frame_weak _ _ _ _ Hi F0); auto.
Qed.
Lemma baseE_upd L E x v : ~ In x (map fst L) -> baseE L E -> baseE L (upd E x v).
Proof.
  intros Hx H y w Hy. destruct (H y w Hy) as [Hn <-]. split; auto. apply upd_other. intros ->.
  apply Hx. apply in_map_iff. exists (x, E x). auto.
Qed.
Lemma baseE_add L E x v : In x names -> ~ In x (map fst L) -> baseE L E -> baseE ((x, Some v) :: L) (upd E x v).
Proof.
  intros Hn Hx H y w [Hy|Hy].
  - injection Hy as <- <-. split; auto. apply upd_same.
  - apply (baseE_upd L E x v Hx) in H. auto.
Qed.
Lemma baseE_drop c L E : baseE (c :: L) E -> baseE L E.
Proof. intros H x v Hx. apply H. now right. Qed.

Lemma mapM_map {A B C} (f : B -> res C) (g : A -> B) l : mapM f (map g l) = mapM (fun x => f (g x)) l.
Proof. induction l as [|a l IH]; cbn; auto. destruct (f (g a)); cbn; auto. now rewrite IH. Qed.
Lemma foldM_map {S A B} (f : S -> B -> res S) (g : A -> B) l : forall s, foldM f (map g l) s = foldM (fun s x => f s (g x)) l s.
Proof. induction l as [|a l IH]; intros s; cbn; auto. destruct (f s (g a)); cbn; auto. Qed.
Lemma zrange_of_nat d : zrange (Z.of_nat d) = map Z.of_nat (seq 0 d).
Proof. unfold zrange. now rewrite Nat2Z.id. Qed.

Lemma sim_map {S A} (f : S -> A -> res S) (s : A -> stmt) (R : S -> env T -> heap T -> Prop) l :
  (forall st a E h, In a l -> R st E h -> sim (f st a) (exec (s a) E h) R) ->
  forall st E h, R st E h -> sim (foldM f l st) (block (map s l) E h) R.
Proof.
  induction l as [|a l IH]; intros HB st E h H; cbn [map foldM].
  - apply sim_end; auto.
  - apply sim_cons with (R := R); [apply HB; cbn; auto|]. intros. apply IH; auto. intros. apply HB; auto. now right.
Qed.

(** ** The groups of statements *)
Section Groups.
Variables (d : nat) (a b : list T) (orders : list Z) (L : list (string * option (val T))).
Hypothesis Hd : (d <= 9)%nat.
Hypothesis La : In ("a"%string, Some (PArr 0 [])) L.
Hypothesis Lb : In ("b"%string, Some (PArr 1 [])) L.
Hypothesis Lo : In ("orders"%string, Some (PArr 2 [])) L.
Hypothesis LA : In ("Ad"%string, None) L.
Hypothesis LdA : In ("dAd"%string, None) L.
Definition inputs (h : heap T) : Prop :=
  nth_error h 0 = Some (OF (vecT a)) /\ nth_error h 1 = Some (OF (vecT b)) /\ nth_error h 2 = Some (OI (vecZ orders)).

Lemma run_dims E h : inputs h -> baseE L E ->
  sim (mapM (g_dim a b orders) (zrange (Z.of_nat d))) (block (s_dims d) E h)
    (fun D E' h' => h' = h /\ frame dim_names E E' /\ List.length D = d /\ dimsE d D E').
Proof.
  intros (K0 & K1 & K2) HE. rewrite zrange_of_nat, mapM_map. unfold s_dims.
  eapply sim_weak.
  - apply (sim_family G call fuel dim_names s_dim (fun q => g_dim a b orders (Z.of_nat q)) dimP (baseE L) d); try lia.
    + intros q E0 E0' Hq. apply dimP_frame; auto.
    + intros E0 E0' F. eapply baseE_frame; eauto. intros x; cbn; tauto.
    + intros q E0 Hq HB. apply (run_dim G call fuel a b orders h 0 1 2 q E0); auto; try lia; apply HB; auto.
    + auto.
  - cbn beta. intros D E' h' (-> & F & Hl & P). split; auto. split; auto. split; auto.
    intros q Hq. apply (P q). apply nth_error_nth'. lia.
Qed.

Lemma flat_single {A B} (f : A -> B) l : map f l = flat_map (fun x => [f x]) l.
Proof. induction l; cbn; congruence. Qed.

Lemma run_xs (vec : bool) (f : Z -> res T) E h : baseE L E ->
  (forall q E, (q < d)%nat -> baseE L E -> eval E (if vec then ESub (EName "points") [EName "n"; I q] else at1 "point" q) h = (v <- f (Z.of_nat q) ;; Ok (PFlt v, h))) ->
  sim (mapM f (zrange (Z.of_nat d))) (block (s_xs vec d) E h)
    (fun X E' h' => h' = h /\ frame ["x"%string] E E' /\ List.length X = d /\ xsE d X E').
Proof.
  intros HE Hf. rewrite zrange_of_nat, mapM_map. unfold s_xs. rewrite flat_single.
  eapply sim_weak.
  - apply (sim_family G call fuel ["x"%string] (fun q => [s_x vec q]) (fun q => f (Z.of_nat q)) (fun E q x => E (nm "x" q) = Some (PFlt x)) (baseE L) d); try lia.
    + intros q E0 E0' Hq F q' x Hq' Hn A. eapply (frame1_get _ _ _ _ _ _ F); auto; intros; cbn [In] in *;
        repeat match goal with H : _ \/ _ |- _ => destruct H | H : False |- _ => destruct H end; subst; neq.
    + intros E0 E0' F. eapply baseE_frame; eauto. intros x; cbn; tauto.
    + intros q E0 Hq HB. unfold s_x, set. apply sim_one. rewrite exec_set, Hf by auto.
      destruct (f (Z.of_nat q)) as [v|e]; cbn [bind sim]; auto.
      eexists _, h. split; [reflexivity|]. split; auto. split; [apply frame1_upd; cbn; auto|apply upd_same].
    + auto.
  - cbn beta. intros X E' h' (-> & F & Hl & P). split; auto. split; auto. split; auto.
    intros q Hq. apply (P q). apply nth_error_nth'. lia.
Qed.

Lemma baseE_tab E : baseE L E -> tabE E.
Proof. intros H. split; eapply H; eauto. Qed.
End Groups.

Lemma g_weights_nth (cells : list (Z * (list T * list T))) : forall m q hl, nth_error (g_weights m cells) q = Some hl ->
  exists c, nth_error cells q = Some c /\ hl = (if m =? Z.of_nat q then snd (snd c) else fst (snd c)).
Proof.
  induction cells as [|[i [ph dph]] cells IH]; intros m [|q] hl H; try discriminate; cbn in H.
  - injection H as <-. exists (i, (ph, dph)). split; auto.
  - apply IH in H as (c & Hc & ->). exists c. split; auto. cbn [snd fst].
    replace (m - 1 =? Z.of_nat q) with (m =? Z.of_nat (S q)); auto.
    destruct (Z.eqb_spec m (Z.of_nat (S q))), (Z.eqb_spec (m - 1) (Z.of_nat q)); auto; lia.
Qed.
Lemma g_weights_length m (cells : list (Z * (list T * list T))) : List.length (g_weights m cells) = List.length cells.
Proof. revert m. induction cells as [|[i [ph dph]] cells IH]; intros m; cbn; auto. Qed.

(** The nested sum of a function, from the facts about the environment. *)
Lemma run_gsum d (kb : bool) (w : nat -> nat -> string) m (X : list T) (D : list (Z * T * T)) (E : env T) (h : heap T) (coefs : arr T) (suf : list Z) :
  (d <= 9)%nat -> List.length X = d -> List.length D = d -> isE D X E ->
  (forall q c, (q < d)%nat -> nth_error (map2 g_cell X D) q = Some c -> forall j, (j < 4)%nat ->
     E (w q j) = Some (PFlt (nth j (if m =? Z.of_nat q then snd (snd c) else fst (snd c)) (n_ofZ 0)))) ->
  E "coefs"%string = Some (PArr 3 []) -> nth_error h 3 = Some (OF coefs) ->
  List.length (ashape coefs) = (d + List.length suf)%nat ->
  (if kb then exists k, suf = [k] /\ 0 <= k /\ E "k"%string = Some (PInt k) else suf = []) ->
  eval E (e_sum kb w 0 d []) h =
    (v <- trex (g_weights m (map2 g_cell X D)) (fun inds => aget coefs (map2 Z.add (map fst (map2 g_cell X D)) inds ++ suf)) [] ;; Ok (PFlt v, h)).
Proof.
  intros Hd HX HD HI HW Hc Hh Hr Hk.
  apply (run_sum0 G call d kb w E h 3 coefs (g_weights m (map2 g_cell X D)) (map fst (map2 g_cell X D)) suf); auto.
  - rewrite g_weights_length, map2_length. lia.
  - intros q hl Hq. apply g_weights_nth in Hq as (c & Hc' & ->).
    assert (Hqd : (q < d)%nat) by (apply nth_cell in Hc'; lia). split.
    + apply nth_cell in Hc' as (_ & _ & ->). rewrite g_cell_it. cbn [snd fst]. destruct (_ =? _); reflexivity.
    + intros j Hj. apply HW; auto.
  - rewrite map_length, map2_length. lia.
  - intros q i Hq. rewrite nth_error_map in Hq. destruct (nth_error (map2 g_cell X D) q) as [c|] eqn:Ec; [|discriminate].
    injection Hq as <-. split; [apply HI; auto|]. apply nth_cell in Ec as (_ & _ & ->).
    destruct (nth q D _) as [[M s] dv]. unfold g_cell. cbn [fst]. lia.
Qed.

Lemma aset_shape (A : arr T) idx v A' : aset A idx v = Ok A' -> ashape A' = ashape A.
Proof. unfold aset. destruct (inb _ _); [|destruct (_ =? _)]; intros E; inversion E; reflexivity. Qed.

Lemma sim_ret {S S'} (r : res S) (f : S -> S') x (R1 : S -> env T -> heap T -> Prop) (R : S' -> env T -> heap T -> Prop) :
  sim r x R1 -> (forall s E h, R1 s E h -> R (f s) E h) -> sim (s <- r ;; Ok (f s)) x R.
Proof. destruct r; cbn; auto. intros (E & h & -> & H) W. eauto. Qed.
(** [x[..] = e] *)
Lemma sim_store x l loc (A : arr T) zs r e (E : env T) (h : heap T) : E x = Some (PArr loc []) -> nth_error h loc = Some (OF A) ->
  Forall2 (fun e z => plain e /\ ev G call E h e (PInt z)) l zs -> List.length zs = List.length (ashape A) -> Forall (fun z => 0 <= z) zs ->
  eval E e h = (v <- r ;; Ok (PFlt v, h)) ->
  sim (v <- r ;; aset A zs v) (exec (SAssign [ESub (EName x) l] e) E h) (fun A' E' h' => E' = E /\ h' = hset h loc (OF A') /\ ashape A' = ashape A).
Proof.
  intros Hx Hl HF Hr Hp He. cbn [PySem.exec assign_all assign]. rewrite He. destruct r as [v|er]; cbn [bind sim]; auto.
  rewrite (eval_name _ _ _ _ _ _ Hx). cbn [bind]. rewrite (subs_ints G call E h l zs HF). cbn [bind].
  rewrite (store_full h loc A zs v Hl Hr Hp). destruct (aset A zs v) as [A'|] eqn:EA; cbn [bind sim]; auto.
  eexists _, _. split; [reflexivity|]. repeat split. eapply aset_shape; eauto.
Qed.

Lemma shape_at E h x loc o y i l R' (f : Z -> res R') (R : R' -> env T -> heap T -> Prop) : E x = Some (PArr loc []) -> nth_error h loc = Some o ->
  (forall n, lget (oshape o) (Z.of_nat i) = Ok n -> sim (f n) (block l (upd E y (PInt n)) h) R) ->
  sim (n <- lget (oshape o) (Z.of_nat i) ;; f n) (block (shape_is y x i :: l) E h) R.
Proof.
  intros Hx Hl HK. unfold shape_is, set. rewrite block_cons, exec_set. cbn [PySem.eval].
  rewrite (lookup_in _ _ _ _ Hx). cbn [bind]. unfold attribute. cbn [String.eqb Ascii.eqb Bool.eqb]. unfold vdims, array_of, hget. rewrite Hl. cbn [bind].
  rewrite vshape_nil. cbn [I PySem.eval bind to_sidx subscript]. rewrite wrap_pos by lia. unfold lget in HK |- * .
  destruct (Z.of_nat i <? 0); [reflexivity|]. rewrite nth_error_map. destruct (nth_error (oshape o) _) as [n|]; cbn [option_map bind]; [|reflexivity].
  apply HK. reflexivity.
Qed.

(** ** The functions *)
Lemma call_body_sim {S} (r : res S) (H : S -> heap T) ps body vs h0 E0 :
  bind_params G call ps vs [] h0 = Ok (E0, h0) -> sim r (block body E0 h0) (fun s _ h => h = H s) ->
  call_body G call fuel ps body vs [] h0 = (s <- r ;; Ok (PNone, H s)).
Proof.
  intros HB HS. unfold call_body. rewrite HB. cbn [bind]. destruct r as [s|e]; cbn [sim] in HS.
  - destruct HS as (E & h & -> & ->). reflexivity.
  - rewrite HS. reflexivity.
Qed.

Ltac inn := cbn; tauto.
Ltac base0 := let H := fresh in intros ? ? H; cbn in H; repeat (destruct H as [H|H]); try (destruct H; fail); injection H as <- <-; (split; [cbn; tauto|reflexivity]).

Definition Lcommon : list (string * option (val T)) :=
  [("a"%string, Some (PArr 0 [])); ("b"%string, Some (PArr 1 [])); ("orders"%string, Some (PArr 2 []));
   ("coefs"%string, Some (PArr 3 [])); ("Ad"%string, None); ("dAd"%string, None)].

Lemma frame_keep ps (E E' : env T) x : frame ps E E' -> incl ps written -> In x names -> E' x = E x.
Proof.
  intros F0 Hi Hx. destruct (names_clean x Hx) as [A B]. apply (frame_weak _ _ _ _ Hi F0); auto.
Qed.

Lemma isE_upd D X (E : env T) x v : In x names -> isE D X E -> isE D X (upd E x v).
Proof.
  intros Hx H q c Hc. rewrite upd_other; [apply H; auto|].
  intros Heq. cbn in Hx. repeat (destruct Hx as [Hx|Hx]; [subst x; discriminate Heq|]). destruct Hx.
Qed.
Lemma ws_upd D X sel p (E : env T) x v : In p ["Phi"; "dPhi"]%string -> In x names -> ws D X sel p E -> ws D X sel p (upd E x v).
Proof.
  intros Hp Hx H q c Hc j Hj. rewrite upd_other; [apply H; auto|].
  intros Heq. cbn in Hp, Hx. repeat (destruct Hp as [Hp|Hp]; [subst p; repeat (destruct Hx as [Hx|Hx]; [subst x; discriminate Heq|]); destruct Hx|]). destruct Hp.
Qed.
Lemma dimsE_upd d D (E : env T) x v : In x names -> dimsE d D E -> dimsE d D (upd E x v).
Proof.
  intros Hx H q Hq. destruct (H q Hq) as (A & B & C). repeat split; rewrite upd_other; auto;
  intros Heq; cbn in Hx; (repeat (destruct Hx as [Hx|Hx]; [subst x; discriminate Heq|])); destruct Hx.
Qed.

Lemma eval_points (points : arr T) n q (E : env T) h loc : E "points"%string = Some (PArr loc []) -> E "n"%string = Some (PInt n) -> 0 <= n ->
  nth_error h loc = Some (OF points) -> List.length (ashape points) = 2%nat ->
  eval E (ESub (EName "points") [EName "n"; I q]) h = (v <- aget points [n; Z.of_nat q] ;; Ok (PFlt v, h)).
Proof.
  intros Hp Hn Hn0 Hh Hr. rewrite eval_sub, (eval_name _ _ _ _ _ _ Hp). cbn [bind].
  rewrite (subs_ints G call E h _ [n; Z.of_nat q]).
  - cbn [bind]. rewrite (subscript_full h loc points); auto.
    + destruct (aget _ _); reflexivity.
    + repeat constructor; lia.
  - repeat constructor; auto using ev_name.
Qed.

Section G.
Variables (d : nat) (a b : list T) (orders : list Z) (coefs points : arr T).
Hypothesis Hd : (d <= 9)%nat.
Definition LG : list (string * option (val T)) :=
  ("points"%string, Some (PArr 4 [])) :: ("vals"%string, Some (PArr 5 [])) :: ("dvals"%string, Some (PArr 6 [])) :: Lcommon.
Definition heapG (st : arr T * arr T) : heap T :=
  [OF (vecT a); OF (vecT b); OI (vecZ orders); OF coefs; OF points; OF (fst st); OF (snd st)].
Lemma heapG_inputs st : inputs a b orders (heapG st).
Proof. repeat split. Qed.

Lemma run_G vals dvals :
  List.length (ashape coefs) = (d + 1)%nat -> List.length (ashape points) = 2%nat -> List.length (ashape vals) = 2%nat -> List.length (ashape dvals) = 3%nat ->
  call_body G call fuel vec_eval_splines_G_ps (vec_eval_splines_G_body d)
    [PArr 0 []; PArr 1 []; PArr 2 []; PArr 3 []; PArr 4 []; PArr 5 []; PArr 6 []] [] (heapG (vals, dvals))
  = (st <- splines_G (Z.of_nat d) a b orders coefs points vals dvals ;; Ok (PNone, heapG st)).
Proof.
  intros Rc Rp Rv Rd. eapply call_body_sim; [reflexivity|].
  match goal with |- sim _ (block _ ?E _) _ => set (E0 := E) end.
  assert (B0 : baseE LG E0) by base0. clearbody E0.
  unfold vec_eval_splines_G_body, splines_G.
  apply (shape_at E0 (heapG (vals, dvals)) "coefs" 3 (OF coefs)); [apply B0; inn|reflexivity|]. cbn [oshape].
  intros nv _. change (adim points 0) with (lget (oshape (OF points)) (Z.of_nat 0)).
  apply (shape_at _ (heapG (vals, dvals)) "points" 4 (OF points)).
  { rewrite upd_other by discriminate. apply B0. inn. }
  { reflexivity. }
  intros N _. cbn [oshape].
  set (E1 := upd (upd E0 _ _) _ _).
  assert (B1 : baseE (("N"%string, Some (PInt N)) :: ("n_vals"%string, Some (PInt nv)) :: LG) E1).
  { unfold E1. apply baseE_add; [cbn; tauto|cbn; intuition discriminate|]. apply baseE_add; [cbn; tauto|cbn; intuition discriminate|auto]. }
  clearbody E1. set (L1 := _ :: _ :: LG) in B1.
  eapply sim_app; [apply (run_dims d a b orders L1); try (unfold L1, LG, Lcommon; inn); auto using heapG_inputs|].
  intros D E2 h2 (-> & F2 & HD & HDm). apply sim_one.
  assert (B2 : baseE L1 E2) by (eapply baseE_frame; [exact F2| |exact B1]; intros x; cbn; tauto).
  eapply sim_weak.
  - apply (sim_range G call fuel _ (fun st E h => h = heapG st /\ baseE L1 E /\ dimsE d D E /\ List.length (ashape (fst st)) = 2%nat /\ List.length (ashape (snd st)) = 3%nat)).
    + apply lookup_in. apply B2. unfold L1; inn.
    + clear E2 F2 HDm B2. intros st n E h Hn (-> & B & HDm & Rv' & Rd'). unfold g_point.
      set (E2 := upd E _ _).
      assert (B2 : baseE (("n"%string, Some (PInt n)) :: L1) E2).
      { apply baseE_add; [cbn; tauto|unfold L1, LG, Lcommon; cbn; intuition discriminate|auto]. }
      assert (HDm2 : dimsE d D E2) by (apply dimsE_upd; [cbn; tauto|auto]).
      clearbody E2. clear E B HDm. set (L2 := _ :: L1) in B2.
      eapply sim_app; [apply (run_xs d L2 Hd true (fun k => aget points [n; k]) E2 (heapG st) B2)|].
      { intros q E Hq BE. apply (eval_points points n q E (heapG st) 4); auto; try lia; apply BE; unfold L2, L1, LG; inn. }
      intros X E3 h3 (-> & F3 & HX & HXs).
      assert (B3 : baseE L2 E3) by (eapply baseE_frame; [exact F3| |exact B2]; intros x; cbn; tauto).
      assert (HDm3 : dimsE d D E3) by (eapply dimsE_frame; [exact F3| |exact HDm2]; intros x; cbn; tauto).
      rewrite block_app.
      destruct (run_cells G call fuel (ev_Ad H6 call) (ev_dAd H6 call) d D X ltac:(lia) HD HX E3 (heapG st) HDm3 HXs) as (E4 & -> & F4 & HI4 & W4 & P4).
      { split; apply B3; unfold L2, L1, LG, Lcommon; inn. }
      cbn [bind]. rewrite block_app.
      assert (B4 : baseE L2 E4) by (eapply baseE_frame; [exact F4| |exact B3]; intros x; cbn; tauto).
      assert (HDm4 : dimsE d D E4) by (eapply dimsE_frame; [exact F4| |exact HDm3]; intros x; cbn; tauto).
      destruct (run_dphis G call fuel (ev_dAd H6 call) d D X ltac:(lia) HD HX E4 (heapG st) HDm4) as (E5 & -> & F5 & W5); auto.
      { split; apply B4; unfold L2, L1, LG, Lcommon; inn. }
      cbn [bind].
      assert (B5 : baseE L2 E5) by (eapply baseE_frame; [exact F5| |exact B4]; intros x; cbn; tauto).
      assert (HDm5 : dimsE d D E5) by (eapply dimsE_frame; [exact F5| |exact HDm4]; intros x; cbn; tauto).
      assert (HI5 : isE D X E5).
      { intros q c Hc. rewrite <- (HI4 q c Hc). apply nth_cell in Hc as (Hq & _).
        apply F5; intros; cbn [In] in *; repeat match goal with H : _ \/ _ |- _ => destruct H | H : False |- _ => destruct H end; subst; neq. }
      assert (W4' : ws D X fst "Phi" E5).
      { intros q c Hc j Hj. rewrite <- (W4 q c Hc j Hj). apply nth_cell in Hc as (Hq & _).
        apply F5; intros; cbn [In] in *; repeat match goal with H : _ \/ _ |- _ => destruct H | H : False |- _ => destruct H end; subst; neq. }
      clear E2 E3 E4 B2 B3 B4 HDm2 HDm3 HDm4 F3 F4 F5 HXs HI4 W4 P4.
      apply sim_one. eapply sim_weak.
      * apply (sim_range G call fuel _ (fun st E h => h = heapG st /\ baseE L2 E /\ dimsE d D E /\ isE D X E /\ ws D X fst "Phi" E /\ ws D X snd "dPhi" E /\
            List.length (ashape (fst st)) = 2%nat /\ List.length (ashape (snd st)) = 3%nat)).
        -- apply lookup_in. apply B5. unfold L2, L1; inn.
        -- clear E5 B5 HDm5 HI5 W4' W5 st Rv' Rd'. intros st k E h Hk (-> & B & HDm & HI & W & dW & Rv' & Rd'). unfold g_store.
           set (E6 := upd E _ _).
           assert (B6 : baseE (("k"%string, Some (PInt k)) :: L2) E6).
           { apply baseE_add; [cbn; tauto|unfold L2, L1, LG, Lcommon; cbn; intuition discriminate|auto]. }
           assert (HDm6 : dimsE d D E6) by (apply dimsE_upd; [cbn; tauto|auto]).
           assert (HI6 : isE D X E6) by (apply isE_upd; [cbn; tauto|auto]).
           assert (W6 : ws D X fst "Phi" E6) by (apply ws_upd; [cbn; tauto|cbn; tauto|auto]).
           assert (dW6 : ws D X snd "dPhi" E6) by (apply ws_upd; [cbn; tauto|cbn; tauto|auto]).
           clearbody E6. clear E B HDm HI W dW. set (L3 := _ :: L2) in B6.
           assert (ES : forall st' m (w : nat -> nat -> string), 
              (forall q c, (q < d)%nat -> nth_error (map2 g_cell X D) q = Some c -> forall j, (j < 4)%nat ->
                E6 (w q j) = Some (PFlt (nth j (if m =? Z.of_nat q then snd (snd c) else fst (snd c)) (n_ofZ 0)))) ->
              eval E6 (e_sum true w 0 d []) (heapG st') = (v <- g_sum coefs (map2 g_cell X D) m k ;; Ok (PFlt v, heapG st'))).
           { intros st' m w Hw. unfold g_sum. apply run_gsum; auto.
             - apply B6. unfold L3, L2, L1, LG, Lcommon; inn.
             - exists k. repeat split; try lia. apply B6. unfold L3; inn. }
           destruct st as [V0 D0]. cbn [fst snd] in * .
           assert (EQ : (v <- g_sum coefs (map2 g_cell X D) (-1) k ;; vals0 <- aset V0 [n; k] v ;;
               dvals0 <- foldM (fun dv m => w <- g_sum coefs (map2 g_cell X D) m k ;; aset dv [n; m; k] w) (zrange (Z.of_nat d)) D0 ;; Ok (vals0, dvals0)) =
             (vals0 <- (v <- g_sum coefs (map2 g_cell X D) (-1) k ;; aset V0 [n; k] v) ;;
               dvals0 <- foldM (fun dv m => w <- g_sum coefs (map2 g_cell X D) m k ;; aset dv [n; m; k] w) (zrange (Z.of_nat d)) D0 ;; Ok (vals0, dvals0))).
           { destruct (g_sum _ _ _ _); reflexivity. }
           rewrite EQ. clear EQ.
           eapply sim_cons.
           { apply (sim_store "vals" [EName "n"; EName "k"] 5 V0 [n; k] (g_sum coefs (map2 g_cell X D) (-1) k)).
             - apply B6. unfold L3, L2, L1, LG; inn.
             - reflexivity.
             - repeat constructor; apply ev_name; apply B6; unfold L3, L2; inn.
             - cbn. lia.
             - repeat constructor; lia.
             - apply (ES (V0, D0) (-1) w_val). intros q c Hq Hc j Hj.
               destruct (Z.eqb_spec (-1) (Z.of_nat q)); [lia|]. unfold w_val. rewrite (W6 q c Hc j Hj), Nat2Z.id. reflexivity. }
           intros V1 E h (-> & -> & S1). cbn [hset heapG fst snd].
           rewrite zrange_of_nat, foldM_map.
           eapply sim_ret.
           ++ apply (sim_map _ (fun q => SAssign [ESub (EName "dvals") [EName "n"; I q; EName "k"]] (e_sum true (w_der q) 0 d []))
                (fun dv E h => E = E6 /\ h = heapG (V1, dv) /\ List.length (ashape dv) = 3%nat)); [|auto].
              intros dv q E h Hq (-> & -> & Rdv). unfold dims in Hq. apply in_seq in Hq.
              eapply sim_weak.
              ** apply (sim_store "dvals" [EName "n"; I q; EName "k"] 6 dv [n; Z.of_nat q; k] (g_sum coefs (map2 g_cell X D) (Z.of_nat q) k)).
                 --- apply B6. unfold L3, L2, L1, LG; inn.
                 --- reflexivity.
                 --- constructor; [split; [exact Logic.I|apply ev_name; apply B6; unfold L3, L2; inn]|].
                     constructor; [split; [exact Logic.I|apply ev_I]|].
                     constructor; [split; [exact Logic.I|apply ev_name; apply B6; unfold L3, L2; inn]|constructor].
                 --- cbn. lia.
                 --- repeat constructor; lia.
                 --- apply (ES (V1, dv) (Z.of_nat q) (w_der q)). intros q' c Hq' Hc j Hj. unfold w_der.
                     destruct (Nat.eqb_spec q' q) as [->|Hne].
                     +++ rewrite Z.eqb_refl, (dW6 q c Hc j Hj), Nat2Z.id. reflexivity.
                     +++ destruct (Z.eqb_spec (Z.of_nat q) (Z.of_nat q')); [lia|]. rewrite (W6 q' c Hc j Hj), Nat2Z.id. reflexivity.
              ** cbn beta. intros dv' E h (-> & -> & S2). repeat split; auto. now rewrite S2.
           ++ cbn beta. intros dv E h (-> & -> & R3). cbn [fst snd]. repeat (split; [solve [auto]|]).
              split; [eapply baseE_drop; exact B6|]. repeat (split; [solve [auto]|]). split; [now rewrite S1|auto].
        -- auto 10.
      * cbn beta. intros st' E h (-> & B & HDm & _ & _ & _ & R1 & R2). split; auto. split; [eapply baseE_drop; exact B|auto].
    + auto 10.
  - cbn beta. intros st E h (-> & _). reflexivity.
Qed.
End G.

Lemma Forall2_imp {A B} (P Q : A -> B -> Prop) l m : (forall a b, P a b -> Q a b) -> Forall2 P l m -> Forall2 Q l m.
Proof. intros H F. induction F; constructor; auto. Qed.
Section Vals.
Variables (d : nat) (a b : list T) (orders : list Z) (coefs : arr T) (pts : obj T) (pn on : string).
Hypothesis Hd : (d <= 9)%nat.
Definition LV : list (string * option (val T)) :=
  (pn, Some (PArr 4 [])) :: (on, Some (PArr 5 [])) :: Lcommon.
Definition heapV (o : arr T) : heap T := [OF (vecT a); OF (vecT b); OI (vecZ orders); OF coefs; pts; OF o].
Definition heapP : heap T := [OF (vecT a); OF (vecT b); OI (vecZ orders); OF coefs; pts].

Lemma sim_cells {S} (r : res S) L D X E h l R : List.length D = d -> List.length X = d ->
  In ("Ad"%string, None) L -> In ("dAd"%string, None) L -> baseE L E -> dimsE d D E -> xsE d X E ->
  (forall E', baseE L E' -> dimsE d D E' -> isE D X E' -> ws D X fst "Phi" E' -> sim r (block l E' h) R) ->
  sim r (block (s_cells d ++ l) E h) R.
Proof.
  intros HD HX LA LdA B HDm HXs K. rewrite block_app.
  destruct (run_cells G call fuel (ev_Ad H6 call) (ev_dAd H6 call) d D X ltac:(lia) HD HX E h HDm HXs) as (E4 & -> & F4 & HI4 & W4 & P4).
  { split; apply B; auto. }
  cbn [bind]. apply K; auto.
  - eapply baseE_frame; [exact F4| |exact B]; intros x; cbn; tauto.
  - eapply dimsE_frame; [exact F4| |exact HDm]; intros x; cbn; tauto.
Qed.

(** The sum with the value weights. *)
Lemma eval_nsum (kb : bool) D X E h suf : List.length X = d -> List.length D = d -> isE D X E -> ws D X fst "Phi" E ->
  E "coefs"%string = Some (PArr 3 []) -> nth_error h 3 = Some (OF coefs) ->
  List.length (ashape coefs) = (d + List.length suf)%nat ->
  (if kb then exists k, suf = [k] /\ 0 <= k /\ E "k"%string = Some (PInt k) else suf = []) ->
  eval E (e_sum kb w_val 0 d []) h = (v <- n_sum coefs (map2 g_cell X D) suf ;; Ok (PFlt v, h)).
Proof.
  intros HX HD HI HW Hc Hh Hr Hk. apply run_gsum; auto. intros q c Hq Hc' j Hj.
  destruct (Z.eqb_spec (-1) (Z.of_nat q)); [lia|]. unfold w_val. rewrite (HW q c Hc' j Hj), Nat2Z.id. reflexivity.
Qed.

(** [for k in range(n_vals): out[pre, k] = ...] *)
Lemma run_kloop L D X nv pre zs E o : List.length X = d -> List.length D = d ->
  In ("coefs"%string, Some (PArr 3 [])) L -> In (on, Some (PArr 5 [])) L -> In ("n_vals"%string, Some (PInt nv)) L ->
  ~ In "k"%string (map fst L) -> 
  (forall E, baseE L E -> Forall2 (fun e z => plain e /\ forall h, ev G call E h e (PInt z)) pre zs) -> Forall (fun z => 0 <= z) zs ->
  List.length (ashape coefs) = (d + 1)%nat -> List.length (ashape o) = (List.length zs + 1)%nat ->
  baseE L E -> dimsE d D E -> isE D X E -> ws D X fst "Phi" E ->
  sim (foldM (fun vals k => v <- n_sum coefs (map2 g_cell X D) [k] ;; aset vals (zs ++ [k]) v) (zrange nv) o)
    (block [range_loop "k" "n_vals" [SAssign [ESub (EName on) (pre ++ [EName "k"])] (e_sum true w_val 0 d [])]] E (heapV o))
    (fun o' E' h' => h' = heapV o' /\ baseE L E' /\ dimsE d D E' /\ List.length (ashape o') = (List.length zs + 1)%nat).
Proof.
  intros HX HD Lc Lv Ln Lk Hpre Hpos Rc Ro B HDm HI HW. apply sim_one. eapply sim_weak.
  - apply (sim_range G call fuel _ (fun o E h => h = heapV o /\ baseE L E /\ dimsE d D E /\ isE D X E /\ ws D X fst "Phi" E /\
        List.length (ashape o) = (List.length zs + 1)%nat)).
    + apply lookup_in. apply B. auto.
    + clear E B HDm HI HW o Ro. intros o k E h Hk (-> & B & HDm & HI & W & Ro).
      set (E6 := upd E _ _).
      assert (B6 : baseE (("k"%string, Some (PInt k)) :: L) E6) by (apply baseE_add; [cbn; tauto|auto|auto]).
      assert (HDm6 : dimsE d D E6) by (apply dimsE_upd; [cbn; tauto|auto]).
      assert (HI6 : isE D X E6) by (apply isE_upd; [cbn; tauto|auto]).
      assert (W6 : ws D X fst "Phi" E6) by (apply ws_upd; [cbn; tauto|cbn; tauto|auto]).
      clearbody E6. clear E B HDm HI W. apply sim_one. eapply sim_weak.
      * apply (sim_store on _ 5 o (zs ++ [k]) (n_sum coefs (map2 g_cell X D) [k])).
        -- apply B6. now right.
        -- reflexivity.
        -- apply Forall2_app.
           ++ eapply Forall2_imp; [|apply (Hpre E6); eapply baseE_drop; exact B6]. intros e z [A1 A2]. auto.
           ++ constructor; [|constructor]. split; [exact Logic.I|]. apply ev_name. apply B6. now left.
        -- rewrite app_length. cbn. lia.
        -- apply Forall_app. split; auto. constructor; auto. lia.
        -- apply eval_nsum; auto.
           ++ apply B6. now right.
           ++ exists k. repeat split; try lia. apply B6. now left.
      * cbn beta. intros o' E h (-> & -> & S1). split; [reflexivity|]. split; [eapply baseE_drop; exact B6|].
        repeat (split; [solve [auto]|]). now rewrite S1.
    + auto 10.
  - cbn beta. intros o' E' h' (-> & B' & HDm' & _ & _ & Ro'). auto.
Qed.
End Vals.

(** ** [eval_cubic_splines_d] *)
Lemma run_splines (d : nat) a b orders coefs point vals : (d <= 9)%nat ->
  List.length (ashape coefs) = (d + 1)%nat -> List.length (ashape vals) = 1%nat ->
  call_body G call fuel eval_splines_ps (eval_splines_body d)
    [PArr 0 []; PArr 1 []; PArr 2 []; PArr 3 []; PArr 4 []; PArr 5 []] [] (heapV a b orders coefs (OF (vecT point)) vals)
  = (o <- num_eval_splines (Z.of_nat d) a b orders coefs point vals ;; Ok (PNone, heapV a b orders coefs (OF (vecT point)) o)).
Proof.
  intros Hd Rc Rv. set (H := heapV a b orders coefs (OF (vecT point))). eapply call_body_sim; [reflexivity|].
  match goal with |- sim _ (block _ ?E _) _ => set (E0 := E) end.
  assert (B0 : baseE (LV "point" "vals") E0) by base0. clearbody E0.
  unfold eval_splines_body, num_eval_splines.
  apply (shape_at E0 (H vals) "coefs" 3 (OF coefs)); [apply B0; inn|reflexivity|]. cbn [oshape].
  intros nv _. set (E1 := upd E0 _ _).
  assert (B1 : baseE (("n_vals"%string, Some (PInt nv)) :: LV "point" "vals") E1).
  { unfold E1. apply baseE_add; [cbn; tauto|cbn; intuition discriminate|auto]. }
  clearbody E1. set (L1 := _ :: LV _ _) in B1.
  eapply sim_app; [apply (run_dims d a b orders L1); try (unfold L1, LV, Lcommon; inn); auto; repeat split|].
  intros D E2 h2 (-> & F2 & HD & HDm).
  assert (B2 : baseE L1 E2) by (eapply baseE_frame; [exact F2| |exact B1]; intros x; cbn; tauto).
  eapply sim_app; [apply (run_xs d L1 Hd false (lget point) E2 (H vals) B2)|].
  { intros q E Hq BE. apply (eval_at1T G call E (H vals) "point" point 4); [apply BE; unfold L1; inn|reflexivity]. }
  intros X E3 h3 (-> & F3 & HX & HXs).
  assert (B3 : baseE L1 E3) by (eapply baseE_frame; [exact F3| |exact B2]; intros x; cbn; tauto).
  assert (HDm3 : dimsE d D E3) by (eapply dimsE_frame; [exact F3| |exact HDm]; intros x; cbn; tauto).
  eapply (sim_cells d Hd _ L1 D X); auto; try (unfold L1, LV, Lcommon; inn).
  intros E4 B4 HDm4 HI4 W4. eapply sim_weak.
  - apply (run_kloop d a b orders coefs (OF (vecT point)) "vals" Hd L1 D X nv [] []); auto; try (unfold L1, LV, Lcommon; inn).
    unfold L1, LV, Lcommon; cbn; intuition discriminate.
  - cbn beta. intros o E h (-> & _). reflexivity.
Qed.

(** ** [vec_eval_cubic_splines_d] *)
Lemma run_vec_splines (d : nat) a b orders coefs points vals : (d <= 9)%nat ->
  List.length (ashape coefs) = (d + 1)%nat -> List.length (ashape points) = 2%nat -> List.length (ashape vals) = 2%nat ->
  call_body G call fuel vec_eval_splines_ps (vec_eval_splines_body d)
    [PArr 0 []; PArr 1 []; PArr 2 []; PArr 3 []; PArr 4 []; PArr 5 []] [] (heapV a b orders coefs (OF points) vals)
  = (o <- num_vec_eval_splines (Z.of_nat d) a b orders coefs points vals ;; Ok (PNone, heapV a b orders coefs (OF points) o)).
Proof.
  intros Hd Rc Rp Rv. set (H := heapV a b orders coefs (OF points)). eapply call_body_sim; [reflexivity|].
  match goal with |- sim _ (block _ ?E _) _ => set (E0 := E) end.
  assert (B0 : baseE (LV "points" "vals") E0) by base0. clearbody E0.
  unfold vec_eval_splines_body, num_vec_eval_splines.
  apply (shape_at E0 (H vals) "coefs" 3 (OF coefs)); [apply B0; inn|reflexivity|]. cbn [oshape].
  intros nv _. change (adim points 0) with (lget (oshape (OF points)) (Z.of_nat 0)).
  apply (shape_at _ (H vals) "points" 4 (OF points)).
  { rewrite upd_other by discriminate. apply B0. inn. }
  { reflexivity. }
  intros N _. cbn [oshape]. set (E1 := upd (upd E0 _ _) _ _).
  assert (B1 : baseE (("N"%string, Some (PInt N)) :: ("n_vals"%string, Some (PInt nv)) :: LV "points" "vals") E1).
  { unfold E1. apply baseE_add; [cbn; tauto|cbn; intuition discriminate|]. apply baseE_add; [cbn; tauto|cbn; intuition discriminate|auto]. }
  clearbody E1. set (L1 := _ :: _ :: LV _ _) in B1.
  eapply sim_app; [apply (run_dims d a b orders L1); try (unfold L1, LV, Lcommon; inn); auto; repeat split|].
  intros D E2 h2 (-> & F2 & HD & HDm). apply sim_one.
  assert (B2 : baseE L1 E2) by (eapply baseE_frame; [exact F2| |exact B1]; intros x; cbn; tauto).
  eapply sim_weak.
  - apply (sim_range G call fuel _ (fun o E h => h = H o /\ baseE L1 E /\ dimsE d D E /\ List.length (ashape o) = 2%nat)).
    + apply lookup_in. apply B2. unfold L1; inn.
    + clear E2 F2 HDm B2. intros o n E h Hn (-> & B & HDm & Ro).
      set (E2 := upd E _ _).
      assert (B2 : baseE (("n"%string, Some (PInt n)) :: L1) E2).
      { apply baseE_add; [cbn; tauto|unfold L1, LV, Lcommon; cbn; intuition discriminate|auto]. }
      assert (HDm2 : dimsE d D E2) by (apply dimsE_upd; [cbn; tauto|auto]).
      clearbody E2. clear E B HDm. set (L2 := _ :: L1) in B2.
      eapply sim_app; [apply (run_xs d L2 Hd true (fun k => aget points [n; k]) E2 (H o) B2)|].
      { intros q E Hq BE. apply (eval_points points n q E (H o) 4); auto; try lia; apply BE; unfold L2, L1, LV; inn. }
      intros X E3 h3 (-> & F3 & HX & HXs).
      assert (B3 : baseE L2 E3) by (eapply baseE_frame; [exact F3| |exact B2]; intros x; cbn; tauto).
      assert (HDm3 : dimsE d D E3) by (eapply dimsE_frame; [exact F3| |exact HDm2]; intros x; cbn; tauto).
      eapply (sim_cells d Hd _ L2 D X); auto; try (unfold L2, L1, LV, Lcommon; inn).
      intros E4 B4 HDm4 HI4 W4. eapply sim_weak.
      * apply (run_kloop d a b orders coefs (OF points) "vals" Hd L2 D X nv [EName "n"%string] [n]); auto; try (unfold L2, L1, LV, Lcommon; inn).
        -- unfold L2, L1, LV, Lcommon; cbn; intuition discriminate.
        -- intros E BE. constructor; [|constructor]. split; [exact Logic.I|]. intros h. apply ev_name. apply BE. unfold L2; inn.
        -- repeat constructor; lia.
      * cbn beta. intros o' E h (-> & B' & HDm' & Ro'). split; auto. split; [eapply baseE_drop; exact B'|auto].
    + auto 10.
  - cbn beta. intros o E h (-> & _). reflexivity.
Qed.

(** ** [vec_eval_cubic_spline_d] *)
Lemma run_vec_spline (d : nat) a b orders coefs points out : (d <= 9)%nat ->
  List.length (ashape coefs) = d -> List.length (ashape points) = 2%nat -> List.length (ashape out) = 1%nat ->
  call_body G call fuel vec_eval_spline_ps (vec_eval_spline_body d)
    [PArr 0 []; PArr 1 []; PArr 2 []; PArr 3 []; PArr 4 []; PArr 5 []] [] (heapV a b orders coefs (OF points) out)
  = (o <- num_vec_eval_spline (Z.of_nat d) a b orders coefs points out ;; Ok (PNone, heapV a b orders coefs (OF points) o)).
Proof.
  intros Hd Rc Rp Rv. set (H := heapV a b orders coefs (OF points)). eapply call_body_sim; [reflexivity|].
  match goal with |- sim _ (block _ ?E _) _ => set (E0 := E) end.
  assert (B0 : baseE (LV "points" "out") E0) by base0. clearbody E0.
  unfold vec_eval_spline_body, num_vec_eval_spline.
  match goal with |- sim ?r _ _ => change r with (nd <- lget (oshape (OF (vecT a))) (Z.of_nat 0) ;; (fun _ : Z => r) nd) end.
  apply (shape_at E0 (H out) "a" 0 (OF (vecT a))); [apply B0; inn|reflexivity|].
  intros nv _. change (adim points 0) with (lget (oshape (OF points)) (Z.of_nat 0)).
  apply (shape_at _ (H out) "points" 4 (OF points)).
  { rewrite upd_other by discriminate. apply B0. inn. }
  { reflexivity. }
  intros N _. cbn [oshape]. set (E1 := upd (upd E0 _ _) _ _).
  assert (B1 : baseE (("N"%string, Some (PInt N)) :: ("d"%string, Some (PInt nv)) :: LV "points" "out") E1).
  { unfold E1. apply baseE_add; [cbn; tauto|cbn; intuition discriminate|]. apply baseE_add; [cbn; tauto|cbn; intuition discriminate|auto]. }
  clearbody E1. set (L1 := _ :: _ :: LV _ _) in B1. apply sim_one.
  eapply sim_weak.
  - apply (sim_range G call fuel _ (fun o E h => h = H o /\ baseE L1 E /\ List.length (ashape o) = 1%nat)).
    + apply lookup_in. apply B1. unfold L1; inn.
    + intros o n E h Hn (-> & B & Ro).
      set (E2 := upd E _ _).
      assert (B2 : baseE (("n"%string, Some (PInt n)) :: L1) E2).
      { apply baseE_add; [cbn; tauto|unfold L1, LV, Lcommon; cbn; intuition discriminate|auto]. }
      clearbody E2. clear E B. set (L2 := _ :: L1) in B2.
      eapply sim_app; [apply (run_xs d L2 Hd true (fun k => aget points [n; k]) E2 (H o) B2)|].
      { intros q E Hq BE. apply (eval_points points n q E (H o) 4); auto; try lia; apply BE; unfold L2, L1, LV; inn. }
      intros X E3 h3 (-> & F3 & HX & HXs).
      assert (B3 : baseE L2 E3) by (eapply baseE_frame; [exact F3| |exact B2]; intros x; cbn; tauto).
      eapply sim_app; [apply (run_dims d a b orders L2); try (unfold L2, L1, LV, Lcommon; inn); auto; repeat split|].
      intros D E4 h4 (-> & F4 & HD & HDm).
      assert (B4 : baseE L2 E4) by (eapply baseE_frame; [exact F4| |exact B3]; intros x; cbn; tauto).
      assert (HXs4 : xsE d X E4) by (eapply xsE_frame; [exact F4| |exact HXs]; intros x; cbn; tauto).
      eapply (sim_cells d Hd _ L2 D X); auto; try (unfold L2, L1, LV, Lcommon; inn).
      intros E5 B5 HDm5 HI5 W5. apply sim_one. eapply sim_weak.
      * apply (sim_store "out" _ 5 o [n] (n_sum coefs (map2 g_cell X D) [])).
        -- apply B5. unfold L2, L1, LV; inn.
        -- reflexivity.
        -- constructor; [|constructor]. split; [exact Logic.I|]. apply ev_name. apply B5. unfold L2; inn.
        -- cbn. lia.
        -- repeat constructor; lia.
        -- eapply (eval_nsum d coefs Hd); auto; try reflexivity; [apply B5; unfold L2, L1, LV, Lcommon; inn|cbn; lia].
      * cbn beta. intros o' E h (-> & -> & S1). split; [reflexivity|]. split; [eapply baseE_drop; exact B5|now rewrite S1].
    + auto 10.
  - cbn beta. intros o E h (-> & _). reflexivity.
Qed.

(** ** [eval_cubic_spline_d] *)
Lemma run_spline (d : nat) a b orders coefs point : (d <= 9)%nat -> List.length (ashape coefs) = d ->
  call_body G call fuel eval_spline_ps (eval_spline_body d)
    [PArr 0 []; PArr 1 []; PArr 2 []; PArr 3 []; PArr 4 []] [] (heapP a b orders coefs (OF (vecT point)))
  = (v <- num_eval_spline (Z.of_nat d) a b orders coefs point ;; Ok (PFlt v, heapP a b orders coefs (OF (vecT point)))).
Proof.
  intros Hd Rc. set (H := heapP a b orders coefs (OF (vecT point))). unfold call_body.
  set (L1 := ("point"%string, Some (PArr 4 [])) :: Lcommon).
  assert (HB : exists E0, bind_params G call eval_spline_ps [PArr 0 []; PArr 1 []; PArr 2 []; PArr 3 []; PArr 4 []] [] H = Ok (E0, H) /\ baseE L1 E0).
  { eexists. split; [reflexivity|base0]. }
  destruct HB as (E0 & -> & B1). cbn [bind].
  unfold eval_spline_body, num_eval_spline.
  assert (S1 : sim (dims <- mapM (g_dim a b orders) (zrange (Z.of_nat d)) ;; xs <- mapM (lget point) (zrange (Z.of_nat d)) ;; Ok (dims, xs))
     (block (s_dims d ++ s_xs false d ++ s_cells d) E0 H)
     (fun p E h => h = H /\ List.length (fst p) = d /\ List.length (snd p) = d /\ baseE L1 E /\ isE (fst p) (snd p) E /\ ws (fst p) (snd p) fst "Phi" E)).
  { eapply sim_app; [apply (run_dims d a b orders L1); try (unfold L1, Lcommon; inn); auto; repeat split|].
    intros D E2 h2 (-> & F2 & HD & HDm).
    assert (B2 : baseE L1 E2) by (eapply baseE_frame; [exact F2| |exact B1]; intros x; cbn; tauto).
    eapply sim_app; [apply (run_xs d L1 Hd false (lget point) E2 H B2)|].
    { intros q E Hq BE. apply (eval_at1T G call E H "point" point 4); [apply BE; unfold L1; inn|reflexivity]. }
    intros X E3 h3 (-> & F3 & HX & HXs).
    assert (B3 : baseE L1 E3) by (eapply baseE_frame; [exact F3| |exact B2]; intros x; cbn; tauto).
    assert (HDm3 : dimsE d D E3) by (eapply dimsE_frame; [exact F3| |exact HDm]; intros x; cbn; tauto).
    rewrite <- (app_nil_r (s_cells d)).
    eapply (sim_cells d Hd _ L1 D X); auto; try (unfold L1, Lcommon; inn).
    intros E4 B4 HDm4 HI4 W4. apply sim_end. cbn [fst snd]. auto 10. }
  match goal with |- context [s_dims d ++ s_xs false d ++ s_cells d ++ ?tl] =>
    replace (s_dims d ++ s_xs false d ++ s_cells d ++ tl) with ((s_dims d ++ s_xs false d ++ s_cells d) ++ tl) by (now rewrite <- !app_assoc) end.
  rewrite block_app.
  destruct (mapM (g_dim a b orders) (zrange (Z.of_nat d))) as [D|e]; cbn [bind sim] in S1 |- * ; [|rewrite S1; reflexivity].
  destruct (mapM (lget point) (zrange (Z.of_nat d))) as [X|e]; cbn [bind sim] in S1 |- * ; [|rewrite S1; reflexivity].
  destruct S1 as (E4 & h4 & -> & -> & HD & HX & B4 & HI4 & W4). cbn [fst snd bind] in * .
  unfold set. rewrite block_cons, exec_set.
  rewrite (eval_nsum d coefs Hd false D X E4 H []); auto; [|apply B4; unfold L1, Lcommon; inn|cbn; lia].
  destruct (n_sum coefs (map2 g_cell X D) []) as [v|e]; cbn [bind]; [|reflexivity].
  reflexivity.
Qed.

End Run.
