(** The parts of the generated programs: coordinates, cell and weights, tensor reductions. *)
From Coq Require Import ZArith List Bool String Lia.
From Verif Require Import Base BaseFacts SplineModel PySyntax PySem PySemFacts SpecText GenModel GenNames GenPhase GenBlocks GenReduce.
Import ListNotations.
Open Scope list_scope.
Open Scope Z_scope.
Open Scope num_scope.

Lemma mapM_nth_ok {A B} (f : A -> res B) : forall l r, mapM f l = Ok r ->
  List.length r = List.length l /\ forall i a, nth_error l i = Some a -> exists b, nth_error r i = Some b /\ f a = Ok b.
Proof.
  induction l as [|a l IH]; intros r H; cbn [mapM] in H.
  - injection H as <-. split; auto. intros [|i] a H; discriminate.
  - apply bind_ok in H as (b & H1 & H). apply bind_ok in H as (bs & H2 & H). injection H as <-. destruct (IH _ H2) as [L N].
    split; [cbn; lia|]. intros [|i] a' H; cbn in *; [injection H as <-; eauto|auto].
Qed.
Lemma nth_error_lt {A} (l : list A) i : (i < List.length l)%nat -> exists a, nth_error l i = Some a.
Proof. intros H. destruct (nth_error l i) eqn:E; eauto. apply nth_error_None in E. lia. Qed.

Lemma insert_in x y l : In x (insert y l) <-> x = y \/ In x l.
Proof.
  induction l as [|z l IH]; cbn [insert]; [cbn; intuition|]. destruct (y <? z); [cbn; intuition|].
  destruct (Z.eqb_spec y z) as [->|]; cbn; [intuition|]. rewrite IH. intuition.
Qed.
Lemma sorted_set_in x l : In x (sorted_set l) <-> In x l.
Proof. unfold sorted_set. induction l as [|y l IH]; cbn [fold_right]; [tauto|]. rewrite insert_in, IH. cbn. intuition. Qed.

Section Parts.
Context {T : Type} {NT : Num T}.
Variable G : env T.
Variable call : string -> list (val T) -> list (string * val T) -> heap T -> res (val T * heap T).
Variable fuel : nat.
Notation eval := (eval G call).
Notation subs := (subs G call).
Notation exec := (exec G call fuel).
Notation block := (block G call fuel).
Notation goes := (goes G call fuel).
Implicit Types (E : env T) (h : heap T).
Hypothesis HCd : G "Cd"%string = Some (PLit (OF (table Cd))).
Hypothesis HdCd : G "dCd"%string = Some (PLit (OF (table dCd))).

Variable k : Z.
Variable vec vv allocate : bool.
Variable xm : extrap.
Variable orders : option (list (list Z)).
Variable grid : list (gdim T).
Variable gs : list (val T).
Variable C : arr T.
Variable Cv Pv : val T.
Variable nv : Z.
Variable outp : bool.
Variable h1 : heap T.
Variable lo : nat.
Hypothesis Hlo : outp = true -> (lo < List.length h1)%nat.
Notation st := (st h1 lo).
Definition types : list bool := map (fun g => negb (is_nonunif g)) grid.

(** ** The names that stay *)
Definition fixed E : Prop :=
  E "grid"%string = Some (PTup gs) /\ E "C"%string = Some Cv /\ E "points"%string = Some Pv /\ E "Cd"%string = None /\ E "dCd"%string = None /\
  (vv = true -> E "n_vals"%string = Some (PInt nv)) /\ (outp = true -> E "out"%string = Some (PArr lo [])).
Definition fixed_names : list string := ["grid"; "C"; "points"; "Cd"; "dCd"; "n_vals"; "out"]%string.
Lemma fixed_same E E' : (forall x, In x fixed_names -> E' x = E x) -> fixed E -> fixed E'.
Proof.
  intros H (H1 & H2 & H3 & H4 & H5 & H6 & H7). unfold fixed. rewrite !H by (cbn; tauto). repeat split; auto.
Qed.
Lemma fixed_nodigit x : In x fixed_names -> nodigit x = true.
Proof. cbn. intuition; subst; reflexivity. Qed.
Lemma fixed_glob : glob fixed.
Proof. intros E E' H. apply fixed_same. intros x Hx. apply H. intros i. apply nodigit_named. now apply fixed_nodigit. Qed.
Lemma fixed_upd E x v : ~ In x fixed_names -> fixed E -> fixed (upd E x v).
Proof. intros N. apply fixed_same. intros y Hy. apply upd_other. intros ->. contradiction. Qed.

Definition dims_ok h : Prop := Forall2 (dim_val h) gs grid.
Lemma dims_nth h i g : dims_ok h -> nth_error grid i = Some g -> exists v, nth_error gs i = Some v /\ dim_val h v g /\ nth i types true = negb (is_nonunif g).
Proof.
  unfold dims_ok, types. intros H. revert i. induction H as [|v g' vs gs' H1 H2 IH]; intros [|i] Hi; try discriminate; cbn in *.
  - injection Hi as ->. eauto.
  - destruct (IH _ Hi) as (w & Hw & Hd & Ht). eauto.
Qed.

Variable gps : list (@gpar T).
Hypothesis Hgps : mapM (dim_recover vec) grid = Ok gps.
Definition gpe (i : nat) E : Prop := forall gp, nth_error gps i = Some gp -> gp_env gs i gp E.
Lemma gpe_local i : local i (gpe i).
Proof. intros E E' H HE gp Hgp. eapply gp_local; eauto. Qed.
Definition gpall E : Prop := forall i, (i < List.length grid)%nat -> gpe i E.
Lemma gps_length : List.length gps = List.length grid.
Proof. now apply mapM_nth_ok in Hgps as [H _]. Qed.

Lemma recover_run h E : dims_ok h -> fixed E ->
  exists E', goes (flat_map (gen_recover vec types) (seq 0 (List.length grid))) E h E' h /\ gframe E E' /\ fixed E' /\ gpall E'.
Proof.
  intros HD HE. eapply (phase _ _ _ fixed (fun _ _ => True) gpe); eauto using fixed_glob, gpe_local.
  - intros i E1 E2 _ _. exact I.
  - intros i E1 Hi F1 _. destruct (nth_error_lt grid i Hi) as [g Hg]. destruct (dims_nth h i g HD Hg) as (v & Hv & Hdv & Ht).
    destruct (mapM_nth_ok _ _ _ Hgps) as [_ N]. destruct (N i g Hg) as (gp & Hgp & Hr).
    destruct (recover_block G call fuel gs vec types i E1 h g v gp) as (E2 & R2 & F2 & G2); auto; [apply F1|].
    exists E2. split; auto. split; auto. intros gp' Hgp'. congruence.
Qed.

(** ** Coordinates *)
Definition step (gp : @gpar T) (x : T) : res (option T) :=
  match xm with
  | XLinear => Ok (Some x)
  | XNearest => '(a, b) <- bounds gp ;; Ok (Some (pymax a (pymin x b)))
  | XConstant => '(a, b) <- bounds gp ;; if outside a b x then Ok None else Ok (Some x)
  end.
Definition coord (i : nat) : expr := ESub (EName "points") (if vec then [EName "nn"; zi i] else [zi i]).
Lemma bounds_env i gp a b E : gp_env gs i gp E -> bounds gp = Ok (a, b) -> E (nm1 "a_" i) = Some (PFlt a) /\ E (nm1 "b_" i) = Some (PFlt b).
Proof.
  destruct gp as [a' b' n del|gc N ab]; cbn [gp_env bounds].
  - intros (H1 & H2 & _) [= <- <-]. auto.
  - intros (_ & _ & H) Hb. destruct ab as [[a' b']|]; [|discriminate]. injection Hb as <- <-. auto.
Qed.
Lemma extract_some i E h gp x y : gp_env gs i gp E -> eval E (coord i) h = Ok (PFlt x, h) -> step gp x = Ok (Some y) ->
  exists E', goes (gen_extract vec vv allocate xm i) E h E' h /\ E' (nm1 "x_" i) = Some (PFlt y) /\ forall n, n <> nm1 "x_" i -> E' n = E n.
Proof.
  intros Hg He Hs. unfold gen_extract, step in *. fold (coord i). destruct xm.
  - apply bind_ok in Hs as ([a b] & Hb & Hs). destruct (bounds_env _ _ _ _ _ Hg Hb) as [Ha Hb']. destruct (outside a b x) eqn:O; [discriminate|]. injection Hs as <-.
    unfold outside in O. apply orb_false_iff in O as [O1 O2]. unfold v1.
    exists (upd E (nm1 "x_" i) (PFlt x)). split; [|split; [apply upd_same|intros; now apply upd_other]].
    eapply goes_set; [exact He|]. eapply goes_if with (t := false); [|cbv iota; apply goes_nil|apply goes_nil].
    change false with (false || false). eapply ev_or.
    + eapply ev_cmp; [apply ev_name; lk|apply ev_name; lk|cbn; now rewrite O1].
    + eapply ev_cmp; [apply ev_name; lk|apply ev_name; lk|cbn; now rewrite O2].
  - injection Hs as <-. exists (upd E (nm1 "x_" i) (PFlt x)). split; [|split; [apply upd_same|intros; now apply upd_other]].
    eapply goes_set; [exact He|]. apply goes_nil.
  - apply bind_ok in Hs as ([a b] & Hb & Hs). destruct (bounds_env _ _ _ _ _ Hg Hb) as [Ha Hb']. injection Hs as <-. unfold v1.
    exists (upd (upd E (nm1 "x_" i) (PFlt x)) (nm1 "x_" i) (PFlt (pymax a (pymin x b)))). split; [|split; [apply upd_same|intros; now rewrite !upd_other]].
    eapply goes_set; [exact He|]. eapply goes_set; [|apply goes_nil].
    eapply ev_call2; [discriminate|apply ev_name; lk|eapply ev_call2; [discriminate|apply ev_name; lk|apply ev_name; lk|reflexivity]|reflexivity].
Qed.
Lemma block_last s E h : block [s] E h = exec s E h.
Proof. rewrite block_cons. destruct (exec s E h) as [[[[] E'] h']|]; reflexivity. Qed.
Lemma extract_none i E h gp x : gp_env gs i gp E -> eval E (coord i) h = Ok (PFlt x, h) -> step gp x = Ok None ->
  block (gen_extract vec vv allocate xm i) E h = block (gen_outside vec vv allocate i) (upd E (nm1 "x_" i) (PFlt x)) h.
Proof.
  intros Hg He Hs. unfold gen_extract, step in *. fold (coord i). destruct xm; [|discriminate|apply bind_ok in Hs as ([a b] & _ & Hs); discriminate].
  apply bind_ok in Hs as ([a b] & Hb & Hs). destruct (bounds_env _ _ _ _ _ Hg Hb) as [Ha Hb']. destruct (outside a b x) eqn:O; [|discriminate].
  unfold outside in O. rewrite block_cons. unfold set. rewrite exec_set, He. cbn [bind]. rewrite block_last. unfold v1.
  erewrite exec_if; [|eapply ev_or; (eapply ev_cmp; [apply ev_name; lk|apply ev_name; lk|reflexivity])]. now rewrite O.
Qed.

(** ** Cell and weights *)
Variable brs : list (Z * T * T).
Definition used (i : nat) : list Z := bases orders i.
Definition blends_ok : Prop := forall i z lam del, nth_error brs i = Some (z, lam, del) -> forall l, In l (used i) -> 0 <= l /\ exists ws, blend k l lam del = Ok ws.
Notation ready := (ready k brs used).

Lemma cell_run (K : env T -> Prop) h E xs : glob K -> (forall E, K E -> fixed E) -> dims_ok h -> K E -> gpall E ->
  (forall i x, nth_error xs i = Some x -> E (nm1 "x_" i) = Some (PFlt x)) -> mapM2 SplineModel.bracket gps xs = Ok brs -> blends_ok ->
  exists E', goes (gen_cell k types orders) E h E' h /\ gframe E E' /\ K E' /\ gpall E' /\ ready E'.
Proof.
  intros GK KF HD KE HG HX HB HBL. unfold gen_cell, dims.
  assert (LT : List.length types = List.length grid) by (unfold types; apply map_length). rewrite LT.
  destruct (mapM2_nth _ _ _ _ HB) as (L1 & L2 & NB). pose proof gps_length as LG.
  set (P1 := fun i E => gpe i E /\ forall x, nth_error xs i = Some x -> E (nm1 "x_" i) = Some (PFlt x)).
  set (Q1 := fun i E => gpe i E /\ forall br, nth_error brs i = Some br -> br_env i br E).
  set (Q2 := fun i E => Q1 i E /\ forall z lam del, nth_error brs i = Some (z, lam, del) -> forall l, In l (used i) -> forall ws, blend k l lam del = Ok ws -> ws_env i l ws E).
  assert (LP1 : forall i, local i (P1 i)).
  { intros i E1 E2 H [A B]. split; [eapply gpe_local; eauto|]. intros x Hx. rewrite H by is_named. auto. }
  assert (LQ1 : forall i, local i (Q1 i)).
  { intros i E1 E2 H [A B]. split; [eapply gpe_local; eauto|]. intros br Hbr. eapply br_local; eauto. }
  assert (LQ2 : forall i, local i (Q2 i)).
  { intros i E1 E2 H [A B]. split; [eapply LQ1; eauto|]. intros z lam del Hz l Hl ws Hws j w Hj. rewrite H by is_named. eapply B; eauto. }
  destruct (phase G call fuel K P1 Q1 (gen_bracket types) (List.length grid) h GK LP1 LQ1) with (E := E) as (E1 & R1 & F1 & K1 & QA); auto.
  { intros i E1 Hi KE1 [A B]. destruct (nth_error_lt grid i Hi) as [g Hg]. destruct (dims_nth h i g HD Hg) as (v & Hv & Hdv & Ht).
    destruct (mapM_nth_ok _ _ _ Hgps) as [_ N]. destruct (N i g Hg) as (gp & Hgp & Hr).
    destruct (nth_error_lt xs i) as [x Hx]; [lia|]. destruct (nth_error_lt brs i) as [br Hbr]; [lia|].
    destruct (bracket_block G call fuel gs types i E1 h g v gp x br) as (E2 & R2 & F2 & G2 & B2); eauto.
    exists E2. split; auto. split; auto. split; [intros gp' Hgp'; congruence|intros br' Hbr'; congruence]. }
  { intros i Hi. split; [now apply HG|]. intros x Hx. now apply HX. }
  destruct (phase G call fuel K Q1 Q2 (gen_bases k orders) (List.length grid) h GK LQ1 LQ2) with (E := E1) as (E2 & R2 & F2 & K2 & QB); auto.
  { intros i E2 Hi KE2 [A B]. destruct (nth_error_lt brs i) as [[[z lam] del] Hbr]; [lia|]. destruct (nth_error_lt gps i) as [gp Hgp]; [lia|].
    pose proof (B _ Hbr) as Bi. destruct (KF _ KE2) as (_ & _ & _ & HC & HdC & _ & _).
    destruct (bases_block G call fuel HCd HdCd k (used i) i E2 h z lam del) as (E3 & R3 & F3 & N3 & W3 & _); auto.
    - apply Forall_forall. intros l Hl. now destruct (HBL i z lam del Hbr l Hl).
    - intros l Hl. now destruct (HBL i z lam del Hbr l Hl).
    - exists E3. split; [exact R3|]. split; [exact F3|]. split; [split|].
      + intros gp' Hgp'. pose proof (A _ Hgp') as A'. destruct gp' as [a b n de|gc N ab]; cbn [gp_env] in *; rewrite !N3 by reflexivity; auto.
      + intros br Hbr'. rewrite Hbr in Hbr'. injection Hbr' as <-. cbn [br_env] in *. rewrite !N3 by reflexivity. auto.
      + intros z' lam' del' Hz'. rewrite Hbr in Hz'. injection Hz' as <- <- <-. auto. }
  exists E2. split; [eapply goes_app; eauto|]. split; [eapply gframe_trans; eauto|]. split; auto. split; [|split].
  - intros i Hi. now apply QB.
  - intros i br Hbr. assert (i < List.length brs)%nat by (apply nth_error_Some; congruence). destruct (QB i) as [[_ X] _]; [lia|auto].
  - intros i z lam del Hz. assert (i < List.length brs)%nat by (apply nth_error_Some; congruence). destruct (QB i) as [_ X]; [lia|eauto].
Qed.

(** ** Values and stores *)
Definition vframe E E' : Prop := forall x, x <> "i_x"%string -> head_part x <> "val_"%string -> E' x = E x.
Lemma named_head i x : named i x -> x <> "i_x"%string /\ head_part x <> "val_"%string.
Proof.
  intros N. split; [intros ->; now apply (nodigit_named "i_x" i)|]. destruct N as (p & s & Hp & Np & _ & ->).
  destruct (head_good p i s Hp) as [-> | ->]; [exact Np|discriminate].
Qed.
Lemma vframe_named i E E' x : vframe E E' -> named i x -> E' x = E x.
Proof. intros H N. destruct (named_head _ _ N). now apply H. Qed.
Lemma vframe_refl E : vframe E E.
Proof. intros x _ _. reflexivity. Qed.
Lemma vframe_trans E1 E2 E3 : vframe E1 E2 -> vframe E2 E3 -> vframe E1 E3.
Proof. intros H1 H2 x Hx Hx'. rewrite H2, H1; auto. Qed.
Lemma vframe_val E E' oo v : vframe E E' -> vframe E (upd E' (val_name oo) v).
Proof. intros H x Hx Hx'. rewrite upd_other; auto. intros ->. apply Hx'. apply head_val. Qed.
Lemma vframe_ix E E' v : vframe E E' -> vframe E (upd E' "i_x" v).
Proof. intros H x Hx Hx'. rewrite upd_other; auto. Qed.
Lemma vframe_fixed E E' : vframe E E' -> fixed E -> fixed E'.
Proof. intros H. apply fixed_same. intros x Hx. apply H; cbn in Hx; intuition; subst; discriminate. Qed.
Lemma vframe_ready E E' : vframe E E' -> ready E -> ready E'.
Proof.
  intros H [A B]. split.
  - intros i br Hbr. apply (br_local i br E); auto. intros x Hx. eapply vframe_named; eauto.
  - intros i z lam del Hz l Hl ws Hws j w Hj. rewrite (vframe_named i E E'); auto using phi_named. eapply B; eauto.
Qed.
Lemma vframe_gpall E E' : vframe E E' -> gpall E -> gpall E'.
Proof. intros H A i Hi. eapply gpe_local; [|apply A; auto]. intros x Hx. eapply vframe_named; eauto. Qed.

Definition order_ok (oo : list Z) : Prop := List.length oo = List.length grid /\ Forall (fun l => 0 <= l < 10) oo /\ forall i l, nth_error oo i = Some l -> In l (used i).
(** Does the text of the subscripts [ix] denote the numbers [ixz]. *)
Definition denotes E (ix : list expr) (ixz : list Z) : Prop :=
  (ix = [] /\ ixz = []) \/ (exists z, ix = [EName "i_x"] /\ ixz = [z] /\ E "i_x"%string = Some (PInt z)).
Lemma denotes_subs E h ix ixz : denotes E ix ixz -> subs E ix h = Ok (map SIx ixz, h).
Proof.
  intros [(-> & ->)|(z & -> & -> & H)]; [reflexivity|]. cbn [map]. apply subs_cons; [now apply ev_name|apply subs_nil].
Qed.
Lemma denotes_val E ix ixz oo v : denotes E ix ixz -> denotes (upd E (val_name oo) v) ix ixz.
Proof.
  intros [H|(z & -> & -> & H)]; [now left|]. right. exists z. repeat split; auto. rewrite upd_other; auto.
  intros X. pose proof (head_val oo) as Y. rewrite <- X in Y. discriminate Y.
Qed.

Lemma vals_run ix ixz h : reads h Cv C -> forall os vals E, fixed E -> ready E -> denotes E ix ixz -> Forall order_ok os ->
  mapM (fun oo => get_value k brs oo C ixz) os = Ok vals ->
  exists E', goes (gen_vals k ix os) E h E' h /\ vframe E E' /\ E' "i_x"%string = E "i_x"%string /\
    Forall2 (fun oo v => E' (val_name oo) = Some (PFlt v)) os vals /\
    (forall oo v, order_ok oo -> get_value k brs oo C ixz = Ok v -> E (val_name oo) = Some (PFlt v) -> E' (val_name oo) = Some (PFlt v)).
Proof.
  intros HR. induction os as [|oo os IH]; intros vals E HF HE HD HO H; cbn [mapM] in H.
  - injection H as <-. exists E. split; [apply goes_nil|]. split; [apply vframe_refl|]. repeat split; auto.
  - apply bind_ok in H as (v & Hv & H). apply bind_ok in H as (vs & Hvs & H). injection H as <-. inversion HO as [|? ? O1 O2]; subst.
    assert (He : eval E (gen_values k oo ix) h = Ok (PFlt v, h)).
    { eapply value_eval; eauto; [apply HF|apply O1|now apply denotes_subs]. }
    set (E1 := upd E (val_name oo) (PFlt v)). assert (V1 : vframe E E1) by (apply vframe_val, vframe_refl).
    destruct (IH vs E1) as (E2 & R2 & V2 & I2 & W2 & K2); eauto using vframe_fixed, vframe_ready, denotes_val.
    assert (I1 : E1 "i_x"%string = E "i_x"%string).
    { unfold E1. apply upd_other. intros X. pose proof (head_val oo) as Y. rewrite <- X in Y. discriminate Y. }
    exists E2. split; [eapply goes_set; eauto|]. split; [eapply vframe_trans; eauto|]. split; [congruence|]. split.
    + constructor; auto. apply K2; auto. apply upd_same.
    + intros oo' v' O' Hv' HE'. apply K2; auto. unfold E1. destruct (list_eq_dec Z.eq_dec oo' oo) as [->|N].
      * rewrite upd_same. congruence.
      * rewrite upd_other; auto. intros X. apply N. apply val_name_inj; auto; [|apply O'|apply O1].
        destruct O' as [L' _], O1 as [L1 _]. congruence.
Qed.

Lemma stores_run E zs es : outp = true -> fixed E -> forall os vals j om om' h,
  (forall h, subs E es h = Ok (map SIx zs, h)) ->
  Forall2 (fun oo v => E (val_name oo) = Some (PFlt v)) os vals ->
  foldM (fun o jv => aset o (zs ++ [fst jv]) (snd jv)) (enum_from j vals) om = Ok om' -> st om h ->
  exists h', goes (map (fun jo => SAssign [ESub (EName "out") (es ++ [EInt (fst jo)])] (EName (val_name (snd jo)))) (enum_from j os)) E h E h' /\ st om' h'.
Proof.
  intros HO HF os. induction os as [|oo os IH]; intros vals j om om' h Hs Hv Hf Hst; inversion Hv as [|? v ? vs V1 V2]; subst; cbn [enum_from map foldM] in *.
  - injection Hf as <-. exists h. split; [apply goes_nil|auto].
  - apply bind_ok in Hf as (om1 & H1 & H2). cbn [fst snd] in *.
    destruct (exec_store G call fuel h1 lo (Hlo HO) om h E (es ++ [EInt j]) (zs ++ [j]) (EName (val_name oo)) v om1) as (h2 & R2 & S2); auto.
    + now apply HF.
    + rewrite map_app. apply subs_app; auto.
    + now apply ev_name.
    + destruct (IH vs (j + 1) om1 om' h2) as (h3 & R3 & S3); auto. exists h3. split; auto. eapply goes_cons; eauto.
Qed.

(** The loop over the components, when values are vectors. *)
Definition zpre (nn : Z) : list Z := if vec then [nn] else [].
Definition fill_ix (nn : Z) (o : arr T) (ix : Z) : res (arr T) :=
  match orders with
  | None => v <- get_value k brs (zeros_like brs) C [ix] ;; aset o (zpre nn ++ [ix]) v
  | Some os => vals <- mapM (fun oo => get_value k brs oo C [ix]) os ;; store_all (zpre nn ++ [ix]) vals o
  end.
Definition orders_ok : Prop := match orders with None => order_ok (zeros_like brs) | Some os => Forall order_ok os end.
Lemma zero_like : List.length brs = List.length grid -> zero_order types = zeros_like brs.
Proof.
  intros L. unfold zero_order, zeros_like, types. rewrite map_map. revert L. generalize grid. intros gr. revert gr.
  clear. induction brs as [|b l IH]; intros [|g gr] L; try discriminate; auto. cbn in *. f_equal. apply IH. lia.
Qed.
Lemma pre_subs E h nn : (vec = true -> E "nn"%string = Some (PInt nn)) -> subs E (pre vec) h = Ok (map SIx (zpre nn), h).
Proof. intros H. unfold pre, zpre. destruct vec; [|reflexivity]. cbn [map]. apply subs_cons; [apply ev_name; auto|apply subs_nil]. Qed.

Lemma comps_run nn om om' E h : vv = true -> outp = true -> List.length brs = List.length grid -> orders_ok ->
  (forall om h, st om h -> reads h Cv C) -> fixed E -> ready E -> gpall E -> (vec = true -> E "nn"%string = Some (PInt nn)) ->
  st om h -> foldM (fill_ix nn) (zrange nv) om = Ok om' ->
  exists E' h', goes (gen_reduce k vec vv allocate types orders) E h E' h' /\ st om' h' /\ vframe E E'.
Proof.
  intros HV HO LB OK HR HF HE HG Hn Hst Hf. unfold gen_reduce. rewrite HV.
  set (R := fun om E' h' => st om h' /\ vframe E E').
  match goal with |- exists E' h', goes [SFor ?x ?r ?b] _ _ _ _ /\ _ => set (body := b) end.
  destruct (range_ok G call fuel (fill_ix nn) R "i_x" "n_vals" nv body) with (s := om) (s' := om') (E := E) (h := h) as (E' & h' & R' & S' & V'); auto.
  - intros o ix o' E1 h2 Hix Hfi [S1 V1].
    assert (V2 : vframe E (upd E1 "i_x" (PInt ix))) by now apply vframe_ix.
    set (E2 := upd E1 "i_x" (PInt ix)) in *.
    assert (D2 : denotes E2 [EName "i_x"] [ix]) by (right; exists ix; repeat split; auto; apply upd_same).
    pose proof (vframe_fixed _ _ V2 HF) as F2. pose proof (vframe_ready _ _ V2 HE) as Y2.
    assert (N2 : vec = true -> E2 "nn"%string = Some (PInt nn)) by (intros X; rewrite V2 by discriminate; auto).
    unfold body, fill_ix, orders_ok in *. destruct orders as [os|].
    + apply bind_ok in Hfi as (vals & Hv & Hs).
      destruct (vals_run [EName "i_x"] [ix] h2 (HR _ _ S1) os vals E2) as (E3 & R3 & V3 & I3 & W3 & _); auto.
      unfold store_all in Hs. unfold gen_stores.
      destruct (stores_run E3 (zpre nn ++ [ix]) (pre vec ++ [EName "i_x"])) with (os := os) (vals := vals) (j := 0) (om := o) (om' := o') (h := h2) as (h3 & R4 & S4);
        eauto using vframe_fixed.
      * intros h4. rewrite map_app. apply subs_app.
        -- apply pre_subs. intros X. rewrite V3 by discriminate. auto.
        -- apply subs_cons; [apply ev_name; rewrite I3; apply upd_same|apply subs_nil].
      * exists Nxt, E3, h3. split; [|split; [now left|split; [auto|eapply vframe_trans; eauto]]].
        eapply goes_app; [exact R3|].
        erewrite map_ext; [exact R4|]. intros jo. cbn. now rewrite <- app_assoc.
    + apply bind_ok in Hfi as (v & Hv & Hs).
      destruct (exec_store G call fuel h1 lo (Hlo HO) o h2 E2 (pre vec ++ [EName "i_x"]) (zpre nn ++ [ix]) (gen_values k (zero_order types) [EName "i_x"]) v o') as (h3 & R3 & S3); auto.
      * now apply F2.
      * rewrite map_app. apply subs_app; [now apply pre_subs|now apply denotes_subs].
      * rewrite zero_like by auto. eapply value_eval; eauto; [apply F2|apply OK|now apply denotes_subs].
      * exists Nxt, E2, h3. split; [|split; [now left|split; auto]]. rewrite block_last. exact R3.
  - now apply HF.
  - split; auto. apply vframe_refl.
  - exists E', h'. split; auto. eapply goes_cons; [exact R'|apply goes_nil].
Qed.
End Parts.
