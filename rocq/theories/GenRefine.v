(** The generated programs compute what the model of SplineModel.v computes, for any number of dimensions. *)
From Coq Require Import ZArith List Bool String Lia.
From Verif Require Import Base BaseFacts SplineModel EvalMaster PySyntax PySem PySemFacts SpecText GenModel GenNames GenPhase GenBlocks GenReduce GenParts.
Import ListNotations.
Open Scope list_scope.
Open Scope Z_scope.
Open Scope num_scope.

Section Refine.
Context {T : Type} {NT : Num T}.
Variable G : env T.
Variable call : string -> list (val T) -> list (string * val T) -> heap T -> res (val T * heap T).
Variable fuel : nat.
Notation eval := (eval G call).
Notation subs := (subs G call).
Notation exec := (exec G call fuel).
Notation block := (block G call fuel).
Notation goes := (goes G call fuel).
Implicit Types (E : env T) (h : heap T).
Hypothesis HCd : G "Cd"%string = Some (PLit (OF (table Cd))).
Hypothesis HdCd : G "dCd"%string = Some (PLit (OF (table dCd))).

Variable k : Z.
Variable vv allocate : bool.
Variable xm : extrap.
Variable orders : option (list (list Z)).
Variable grid : list (gdim T).
Variable gs : list (val T).
Variable C : arr T.
Variable Cv Pv : val T.
Variable nv : Z.
Variable h1 : heap T.
Variable lo : nat.
Notation st := (st h1 lo).
Notation types := (types grid).
Notation dims_ok := (dims_ok grid gs).
Hypothesis Hk : k = 1 \/ k = 3.
Definition orders_fit : Prop :=
  match orders with
  | None => True
  | Some os => os <> [] /\ Forall (fun oo => List.length oo = List.length grid /\ Forall (fun l => 0 <= l < 10) oo) os
  end.
Hypothesis Hord : orders_fit.

Definition xframe (i0 : nat) E E' : Prop := forall x, (forall i, (i0 <= i)%nat -> x <> nm1 "x_" i) -> E' x = E x.
Lemma xframe_refl i E : xframe i E E.
Proof. intros x _. reflexivity. Qed.
Lemma xframe_cons i E E1 E2 : (forall n, n <> nm1 "x_" i -> E1 n = E n) -> xframe (S i) E1 E2 -> xframe i E E2.
Proof. intros H1 H2 x Hx. rewrite H2, H1; auto. intros j Hj. apply Hx. lia. Qed.
Lemma xframe_gp i0 i gp E E' : xframe i0 E E' -> gp_env gs i gp E -> gp_env gs i gp E'.
Proof.
  intros H. assert (X : forall p, plainb p && negb (String.eqb p "x_") = true -> E' (nm1 p i) = E (nm1 p i)).
  { intros p Hp. apply H. intros j _. apply nm1_neq. unfold plainb in Hp. rewrite !andb_true_iff in Hp. destruct Hp as ((((P1 & P2) & _) & _) & P5).
    rewrite P1, P2, P5. reflexivity. }
  destruct gp as [a b n de|gc N ab]; cbn [gp_env]; rewrite !X by reflexivity; auto.
Qed.
Lemma xframe_fixed vv' nv' op i0 E E' : xframe i0 E E' -> fixed vv' gs Cv Pv nv' op lo E -> fixed vv' gs Cv Pv nv' op lo E'.
Proof. intros H. apply fixed_same. intros x Hx. apply H. intros i _. apply fix_nm1. now apply (fixed_nodigit (T:=T)). Qed.
Lemma xframe_fix i0 E E' x : nodigit x = true -> xframe i0 E E' -> E' x = E x.
Proof. intros Hx H. apply H. intros i _. now apply fix_nm1. Qed.
Lemma xframe_gpall gps i0 E E' : xframe i0 E E' -> gpall grid gs gps E -> gpall grid gs gps E'.
Proof. intros H A i Hi gp Hgp. eapply xframe_gp; eauto. apply A; auto. Qed.

(** ** Orders *)
Lemma used_in os oo i l : orders = Some os -> In oo os -> nth_error oo i = Some l -> In l (used orders i).
Proof.
  intros -> Ho Hl. unfold used, bases. rewrite !sorted_set_in. apply in_map_iff. exists oo. split; auto. now apply nth_error_nth.
Qed.
Lemma orders_ok_brs (brs : list (Z * T * T)) : List.length brs = List.length grid -> orders_ok orders grid brs.
Proof.
  intros L. unfold orders_ok, orders_fit in *. destruct orders as [os|] eqn:Eo.
  - destruct Hord as [_ H]. rewrite Forall_forall in *. intros oo Ho. destruct (H _ Ho) as [L' B]. split; auto. split; auto.
    intros i l Hl. rewrite <- Eo. eapply used_in; eauto.
  - unfold zeros_like. split; [rewrite map_length; auto|]. split.
    + apply Forall_forall. intros l Hl. apply in_map_iff in Hl as (b & <- & _). lia.
    + intros i l Hl. apply nth_error_In in Hl. apply in_map_iff in Hl as (b & <- & _). cbn. auto.
Qed.
Lemma blends_from (brs : list (Z * T * T)) : List.length brs = List.length grid ->
  (forall os, orders = Some os -> exists ix vals, mapM (fun oo => get_value k brs oo C ix) os = Ok vals) -> blends_ok k orders brs.
Proof.
  intros L H i z lam del Hb l Hl. unfold used, bases, orders_fit in *. destruct orders as [os|].
  - rewrite !sorted_set_in in Hl. apply in_map_iff in Hl as (oo & Hl & Ho). destruct Hord as [_ HF]. rewrite Forall_forall in HF.
    destruct (HF _ Ho) as [Lo B]. assert (Hi : (i < List.length brs)%nat) by (apply nth_error_Some; congruence).
    destruct (nth_error_lt oo i) as [l' Hl']; [lia|]. assert (l' = l) as -> by (rewrite <- Hl; symmetry; now apply nth_error_nth).
    rewrite Forall_forall in B. split; [apply B; eapply nth_error_In; eauto|].
    destruct (H os eq_refl) as (ix & vals & Hv). apply mapM_nth_ok in Hv as [_ Hv]. apply In_nth_error in Ho as [j Hj].
    destruct (Hv j oo Hj) as (v & _ & Hg). unfold get_value in Hg. apply bind_ok in Hg as (phis & Hp & _).
    destruct (mapM2_nth _ _ _ _ Hp) as (L1 & L2 & N). destruct (nth_error_lt phis i) as [ws Hws]; [lia|].
    exists ws. exact (N i _ _ _ Hb Hl' Hws).
  - cbn in Hl. destruct Hl as [<-|[]]. split; [lia|]. unfold blend. destruct Hk as [-> | ->]; cbn; eauto.
Qed.

(** ** Many points *)
Section Rows.
Variable P : arr T.
Variable gps : list (@gpar T).
Hypothesis Hgps : mapM recoverN grid = Ok gps.
Hypothesis Hlo : (lo < List.length h1)%nat.
Notation fixed := (fixed vv gs Cv Pv nv true lo).
Notation gpall := (gpall grid gs gps).
Hypothesis HPr : forall om h, st om h -> reads h Pv P.
Hypothesis HCr : forall om h, st om h -> reads h Cv C.
Hypothesis HDr : forall om h, st om h -> dims_ok h.
Hypothesis Hnv : vv = true -> orders <> None -> 1 <= nv.

Lemma extractN_step (gp : @gpar T) gps' x pt : extractN xm (gp :: gps') (x :: pt) =
  (y <- step xm gp x ;; match y with Some y => r <- extractN xm gps' pt ;; match r with Some xs => Ok (Some (y :: xs)) | None => Ok None end | None => Ok None end).
Proof.
  cbn [extractN]. unfold step. destruct xm; auto; destruct (bounds gp) as [[a b]|]; auto. cbn [bind]. destruct (outside a b x); reflexivity.
Qed.
Lemma outside_run nn om om' h E i : st om h -> fixed E -> E "nn"%string = Some (PInt nn) -> 0 <= nn -> (vv = true -> 2 <= andim om) ->
  afill_row0 om nn = Ok om' -> exists h', block (gen_outside true vv allocate i) E h = Ok (Cnt, E, h') /\ st om' h'.
Proof.
  intros S F Hn Hp Hr Hf. unfold gen_outside. destruct (fill_row G call fuel h1 lo Hlo om h E nn om' vv) as (h' & R & S'); auto; [now apply F|].
  exists h'. split; auto. rewrite block_cons, R. reflexivity.
Qed.
Lemma extractN_run nn om h : st om h -> 0 <= nn -> (vv = true -> 2 <= andim om) -> forall gps' i0 pt r E,
  (forall i gp, nth_error gps' i = Some gp -> gp_env gs (i0 + i) gp E) ->
  (forall i x, nth_error pt i = Some x -> aget P [nn; Z.of_nat (i0 + i)] = Ok x) ->
  fixed E -> E "nn"%string = Some (PInt nn) -> extractN xm gps' pt = Ok r ->
  match r with
  | Some xs => exists E', goes (flat_map (gen_extract true vv allocate xm) (seq i0 (List.length gps'))) E h E' h /\ xframe i0 E E' /\
      forall i x, nth_error xs i = Some x -> E' (nm1 "x_" (i0 + i)) = Some (PFlt x)
  | None => forall om', afill_row0 om nn = Ok om' ->
      exists E' h', block (flat_map (gen_extract true vv allocate xm) (seq i0 (List.length gps'))) E h = Ok (Cnt, E', h') /\ st om' h' /\ xframe i0 E E'
  end.
Proof.
  intros S Hp Hr. induction gps' as [|gp gps' IH]; intros i0 pt r E HG HP HF Hn H.
  - cbn in H. injection H as <-. exists E. split; [apply goes_nil|]. split; [apply xframe_refl|]. intros [|i] x X; discriminate.
  - destruct pt as [|x pt]; [discriminate|]. rewrite extractN_step in H. apply bind_ok in H as (y & Hs & H). cbn [List.length seq flat_map].
    assert (Hc : eval E (coord true i0) h = Ok (PFlt x, h)).
    { pose proof (HP 0%nat x eq_refl) as A. rewrite Nat.add_0_r in A. destruct (aget_inv _ _ _ A) as [B ->]. unfold coord, zi.
      eapply ev_sub; [apply ev_name; apply HF|eapply subs_cons; [apply ev_name; exact Hn|eapply subs_cons; [apply ev_int|apply subs_nil]]|].
      apply (reads_sub h Pv P [nn; Z.of_nat i0]); auto. now apply (HPr om). }
    assert (Hg : gp_env gs i0 gp E) by (rewrite <- (Nat.add_0_r i0); now apply HG).
    destruct y as [y|].
    + destruct (extract_some G call fuel true vv allocate xm gs i0 E h gp x y Hg Hc Hs) as (E1 & R1 & X1 & F1).
      assert (XF : xframe i0 E E1) by (intros n Hn'; apply F1; apply Hn'; lia).
      apply bind_ok in H as (r' & Hr' & H).
      assert (J : match r' with
        | Some xs => exists E', goes (flat_map (gen_extract true vv allocate xm) (seq (Datatypes.S i0) (List.length gps'))) E1 h E' h /\ xframe (Datatypes.S i0) E1 E' /\
            forall i x, nth_error xs i = Some x -> E' (nm1 "x_" (Datatypes.S i0 + i)) = Some (PFlt x)
        | None => forall om', afill_row0 om nn = Ok om' ->
            exists E' h', block (flat_map (gen_extract true vv allocate xm) (seq (Datatypes.S i0) (List.length gps'))) E1 h = Ok (Cnt, E', h') /\ st om' h' /\ xframe (Datatypes.S i0) E1 E'
        end).
      { apply (IH (Datatypes.S i0) pt r' E1); auto.
        - intros i gp' Hgp'. eapply xframe_gp; eauto. replace (Datatypes.S i0 + i)%nat with (i0 + Datatypes.S i)%nat by lia. now apply HG.
        - intros i x' Hx'. replace (Datatypes.S i0 + i)%nat with (i0 + Datatypes.S i)%nat by lia. now apply HP.
        - eapply xframe_fixed; eauto.
        - rewrite (xframe_fix i0 E E1); auto. }
      destruct r' as [xs|]; injection H as <-.
      * destruct J as (E2 & R2 & F2 & X2). exists E2. split; [eapply goes_app; eauto|]. split; [eapply xframe_cons; eauto|].
        intros [|i] x' Hx'.
        -- injection Hx' as <-. rewrite Nat.add_0_r, F2; auto. intros j Hj. apply nm1_neq_dim; auto. lia.
        -- replace (i0 + Datatypes.S i)%nat with (Datatypes.S i0 + i)%nat by lia. now apply X2.
      * intros om' Hf. destruct (J om' Hf) as (E2 & h2 & R2 & S2 & F2). exists E2, h2. split; [eapply block_goes; eauto|]. split; auto. eapply xframe_cons; eauto.
    + injection H as <-. intros om' Hf.
      pose proof (extract_none G call fuel true vv allocate xm gs i0 E h gp x Hg Hc Hs) as R1.
      set (E1 := upd E (nm1 "x_" i0) (PFlt x)) in *.
      assert (XF : xframe i0 E E1) by (intros n Hn'; apply upd_other; apply Hn'; lia).
      destruct (outside_run nn om om' h E1 i0) as (h2 & R2 & S2); auto; try (solve [eapply xframe_fixed; eauto]); try (rewrite (xframe_fix i0 E E1); solve [auto]).
      exists E1, h2. split; [|split; auto]. apply block_stops; [|discriminate]. now rewrite R1.
Qed.

Definition row_body : list stmt := flat_map (gen_extract true vv allocate xm) (dims types) ++ gen_cell k types orders ++ gen_reduce k true vv allocate types orders.
Lemma dims_types : dims types = seq 0 (List.length grid).
Proof. unfold dims, GenParts.types. now rewrite map_length. Qed.
Lemma row_nth (p : arr T) nn pt : row (zlen grid) p nn = Ok pt -> List.length pt = List.length grid /\ forall i x, nth_error pt i = Some x -> aget p [nn; Z.of_nat i] = Ok x.
Proof.
  unfold row. intros H. destruct (mapM_nth_ok _ _ _ H) as [L N]. rewrite zrange_length in L. unfold zlen in L. rewrite Nat2Z.id in L. split; auto.
  intros i x Hx. assert (Hi : (i < List.length grid)%nat) by (rewrite <- L; apply nth_error_Some; congruence).
  destruct (N i (Z.of_nat i)) as (y & Hy & A); [|congruence]. unfold zrange, zlen. rewrite Nat2Z.id.
  rewrite nth_error_map. assert (nth_error (seq 0 (List.length grid)) i = Some i) as ->; auto.
  rewrite (nth_error_nth' _ 0%nat) by (rewrite seq_length; lia). now rewrite seq_nth.
Qed.

Definition Rrow (om : arr T) E h : Prop := fixed E /\ gpall E /\ st om h /\ (vv = true -> 2 <= andim om).
Lemma row_run nn om om' E h : vv = (andim C =? zlen grid + 1) -> 0 <= nn -> Rrow om E h ->
  eval_row k orders xm vv nv (zlen grid) gps C P om nn = Ok om' ->
  exists g E' h', block row_body (upd E "nn" (PInt nn)) h = Ok (g, E', h') /\ (g = Nxt \/ g = Cnt) /\ Rrow om' E' h'.
Proof.
  intros Hvv Hp (HF & HG & HS & HR) H.
  assert (Sh : ashape om' = ashape om) by (rewrite Hvv in H; now apply eval_row_shape in H).
  assert (HR' : vv = true -> 2 <= andim om') by (unfold andim; rewrite Sh; exact HR).
  unfold eval_row in H. apply bind_ok in H as (pt & Hrow & H). apply bind_ok in H as (co & Hco & H).
  destruct (row_nth _ _ _ Hrow) as [Lp Np]. pose proof (gps_length true grid gps Hgps) as Lg.
  set (E0 := upd E "nn" (PInt nn)). assert (F0 : fixed E0) by (apply fixed_upd; auto; cbn; intuition; discriminate).
  assert (N0 : E0 "nn"%string = Some (PInt nn)) by apply upd_same.
  assert (G0 : gpall E0).
  { intros i Hi. eapply gpe_local; [|apply HG; auto]. intros x Hx. apply upd_other. intros ->. now apply (nodigit_named "nn" i) in Hx. }
  pose proof (extractN_run nn om h HS Hp HR gps 0 pt co E0) as X. rewrite Lg in X. unfold row_body. rewrite dims_types.
  specialize (X (fun i gp Hgp => G0 i ltac:(rewrite <- Lg; apply nth_error_Some; congruence) gp Hgp) (fun i x => Np i x) F0 N0 Hco).
  destruct co as [xs|].
  - destruct X as (E1 & R1 & F1 & X1). apply bind_ok in H as (brs & Hb & H).
    assert (Lb : List.length brs = List.length grid) by (apply mapM2_nth in Hb as (_ & L & _); lia).
    set (K := fun E => fixed E /\ E "nn"%string = Some (PInt nn)).
    assert (GK : glob K).
    { intros Ea Eb Hf [A B]. split; [eapply fixed_glob; eauto|]. rewrite Hf; auto. intros i. now apply nodigit_named. }
    assert (BL : blends_ok k orders brs).
    { apply blends_from; auto. intros os Ho. rewrite Ho in H. destruct vv.
      - assert (1 <= nv) by (apply Hnv; auto; congruence). rewrite zrange_cons in H by lia. cbn [foldM] in H.
        apply bind_ok in H as (o1 & H & _). apply bind_ok in H as (vals & H & _). eauto.
      - apply bind_ok in H as (vals & H & _). eauto. }
    destruct (cell_run G call fuel HCd HdCd k true vv orders grid gs Cv Pv nv true h1 lo (fun _ => Hlo) gps Hgps brs K h E1 xs)
      as (E2 & R2 & F2 & [FX2 N2] & G2 & Y2); auto.
    + intros Ea [A _]. exact A.
    + now apply (HDr om).
    + split; [eapply xframe_fixed; eauto|]. rewrite (xframe_fix 0 E0 E1); auto.
    + eapply xframe_gpall; eauto.
    + assert (OK := orders_ok_brs brs Lb).
      assert (X : exists E3 h3, goes (gen_reduce k true vv allocate types orders) E2 h E3 h3 /\ st om' h3 /\ vframe E2 E3).
      { destruct (bool_dec vv true) as [V|V].
        - apply (comps_run G call fuel k true vv allocate orders grid gs C Cv Pv nv true h1 lo (fun _ => Hlo) gps Hgps brs nn om om' E2 h); auto.
          rewrite V in H. unfold fill_ix, zpre. cbn [app]. destruct orders; exact H.
        - apply not_true_is_false in V. rewrite V in H. unfold gen_reduce. rewrite V. unfold orders_ok in OK.
          assert (D : (exists os, orders = Some os) \/ orders = None) by (clear; destruct orders; eauto).
          destruct D as [[os Eo]|Eo]; rewrite Eo in H, OK |- *; rewrite <- Eo in OK.
          + apply bind_ok in H as (vals & Hv & Hs).
            destruct (vals_run G call fuel k vv orders grid gs C Cv Pv nv true lo brs [] [] h (HCr _ _ HS) os vals E2) as (E3 & R3 & V3 & I3 & W3 & _);
              auto; [now left|].
            destruct (stores_run G call fuel vv gs Cv Pv nv true h1 lo (fun _ => Hlo) E3 [nn] [EName "nn"]) with (os := os) (vals := vals) (j := 0) (om := om) (om' := om') (h := h)
              as (h3 & R4 & S4); auto.
            * eapply vframe_fixed; eauto.
            * intros h4. cbn [map]. apply subs_cons; [apply ev_name; rewrite V3 by discriminate; auto|apply subs_nil].
            * exists E3, h3. split; [|split; auto]. eapply goes_app; [exact R3|exact R4].
          + apply bind_ok in H as (v & Hv & Hs).
            destruct (exec_store G call fuel h1 lo Hlo om h E2 [EName "nn"] [nn] (gen_values k (zero_order types) []) v om') as (h3 & R3 & S3); auto.
            * now apply FX2.
            * cbn [map]. apply subs_cons; [now apply ev_name|apply subs_nil].
            * rewrite (zero_like grid brs) by auto. eapply value_eval with (Cv := Cv) (C := C); eauto; [apply FX2|apply OK|reflexivity].
            * exists E2, h3. split; [|split; [auto|apply vframe_refl]]. eapply goes_cons; [exact R3|apply goes_nil]. }
      destruct X as (E3 & h3 & R3 & S3 & V3). exists Nxt, E3, h3. split; [|split; [now left|]].
      * eapply goes_app; [exact R1|]. eapply goes_app; [exact R2|exact R3].
      * split; [eapply vframe_fixed; eauto|]. split; [eapply vframe_gpall; eauto|]. auto.
  - destruct (X om' H) as (E1 & h2 & R1 & S1 & F1). exists Cnt, E1, h2. split; [apply block_stops; [exact R1|discriminate]|]. split; [now right|].
    split; [eapply xframe_fixed; eauto|]. split; [eapply xframe_gpall; eauto|]. auto.
Qed.

Lemma rows_run N om om' E h : vv = (andim C =? zlen grid + 1) -> Rrow om E h -> E "N"%string = Some (PInt N) ->
  foldM (eval_row k orders xm vv nv (zlen grid) gps C P) (zrange N) om = Ok om' ->
  exists E' h', exec (SFor (EName "nn") (ECall (EName "range") [EName "N"] []) row_body) E h = Ok (Nxt, E', h') /\ Rrow om' E' h'.
Proof.
  intros Hvv HR HN H. apply (range_ok G call fuel (eval_row k orders xm vv nv (zlen grid) gps C P) Rrow "nn" "N" N row_body) with (s := om); auto.
  intros o nn o' E1 h2 Hnn He HR1. eapply row_run; eauto. lia.
Qed.
Lemma tailN_run om om' N E h : vv = (andim C =? zlen grid + 1) -> st om h -> (vv = true -> 2 <= andim om) -> fixed E -> E "N"%string = Some (PInt N) ->
  foldM (eval_row k orders xm vv nv (zlen grid) gps C P) (zrange N) om = Ok om' ->
  exists E' h', goes (flat_map (gen_recover true types) (dims types) ++
    [SFor (EName "nn") (ECall (EName "range") [EName "N"] []) row_body]) E h E' h' /\ st om' h' /\ fixed E'.
Proof.
  intros Hvv S R F HN H. rewrite dims_types.
  destruct (recover_run G call fuel true vv grid gs Cv Pv nv true lo gps Hgps h E) as (E1 & R1 & F1 & X1 & G1); auto; [now apply (HDr om)|].
  destruct (rows_run N om om' E1 h) as (E2 & h2 & R2 & X2 & _ & S2 & _); auto.
  - repeat split; auto; apply X1.
  - rewrite F1; auto. intros i. now apply nodigit_named.
  - exists E2, h2. split; [|split; auto]. eapply goes_app; [exact R1|]. eapply goes_cons; [exact R2|apply goes_nil].
Qed.
End Rows.

(** ** One point *)
Section Point.
Variable outp : bool.
Variable pt : list T.
Variable gps : list (@gpar T).
Hypothesis Hgps : mapM recover1 grid = Ok gps.
Hypothesis Hlo : outp = true -> (lo < List.length h1)%nat.
Notation fixed := (fixed vv gs Cv Pv nv outp lo).
Notation gpall := (gpall grid gs gps).
(** The content of [out], if there is such an array. *)
Definition hr (oc : option (arr T)) h : Prop :=
  match oc with Some om => outp = true /\ st om h | None => outp = false /\ h = h1 end.
Definition pt_val h : Prop := Pv = PTup (map PFlt pt) \/ reads h Pv (vecT pt).
Hypothesis HPr : forall oc h, hr oc h -> pt_val h.
Hypothesis HCr : forall oc h, hr oc h -> reads h Cv C.
Hypothesis HDr : forall oc h, hr oc h -> dims_ok h.
Hypothesis Hnv : vv = true -> orders <> None -> 1 <= nv.

Lemma pt_coord E h i x : pt_val h -> nth_error pt i = Some x -> fixed E -> eval E (coord false i) h = Ok (PFlt x, h).
Proof.
  intros HP Hx HF. unfold coord, zi. eapply ev_sub; [apply ev_name; apply HF|eapply subs_cons; [apply ev_int|apply subs_nil]|].
  destruct HP as [->|HP].
  - apply tup_sub. rewrite nth_error_map, Hx. reflexivity.
  - eapply vec_sub; eauto. unfold lget. destruct (Z.ltb_spec (Z.of_nat i) 0); [lia|]. now rewrite Nat2Z.id, Hx.
Qed.
Definition go_on (y : T) (r : res (@coords1 T)) : res (@coords1 T) :=
  c <- r ;; match c with Go1 xs o => Ok (Go1 (y :: xs) o) | Ret1 v o => Ok (Ret1 v o) end.
Lemma extract1_step (gp : @gpar T) gps' x pt' oc : extract1 xm vv allocate (gp :: gps') (x :: pt') oc =
  (y <- step xm gp x ;;
   match y with
   | Some y => go_on y (extract1 xm vv allocate gps' pt' oc)
   | None =>
       if vv then match oc with
                  | None => Err NameErr
                  | Some o => if allocate then Ok (Ret1 (VArr (afill0 o)) None) else go_on x (extract1 xm vv allocate gps' pt' (Some (afill0 o)))
                  end
       else Ok (Ret1 (VNum (n_ofZ 0)) oc)
   end).
Proof.
  cbn [extract1]. unfold step, go_on. destruct xm; auto; destruct (bounds gp) as [[a b]|]; auto. cbn [bind]. destruct (outside a b x); [|reflexivity].
  reflexivity.
Qed.
Definition returned (v : pyval T) (w : val T) h : Prop :=
  match v with
  | VArr o => allocate = true /\ w = PArr lo [] /\ hr (Some o) h
  | VNum x => w = PFlt x
  | VTuple l => w = PTup (map PFlt l)
  | VNone => w = PNone
  end.
Lemma extract1_run : forall gps' i0 pt' r oc E h,
  (forall i gp, nth_error gps' i = Some gp -> gp_env gs (i0 + i) gp E) ->
  (forall i x, nth_error pt' i = Some x -> nth_error pt (i0 + i) = Some x) ->
  hr oc h -> fixed E -> extract1 xm vv allocate gps' pt' oc = Ok r ->
  match r with
  | Go1 xs oc' => exists E' h', goes (flat_map (gen_extract false vv allocate xm) (seq i0 (List.length gps'))) E h E' h' /\ hr oc' h' /\ xframe i0 E E' /\
      forall i x, nth_error xs i = Some x -> E' (nm1 "x_" (i0 + i)) = Some (PFlt x)
  | Ret1 v oc' => exists w E' h' oc'', block (flat_map (gen_extract false vv allocate xm) (seq i0 (List.length gps'))) E h = Ok (Ret w, E', h') /\
      returned v w h' /\ hr oc'' h' /\ (allocate = false -> oc'' = oc')
  end.
Proof.
  induction gps' as [|gp gps' IH]; intros i0 pt' r oc E h HG HP HR HF H.
  - cbn in H. injection H as <-. exists E, h. split; [apply goes_nil|]. split; auto. split; [apply xframe_refl|]. intros [|i] x X; discriminate.
  - destruct pt' as [|x pt']; [discriminate|]. rewrite extract1_step in H. apply bind_ok in H as (y & Hs & H). cbn [List.length seq flat_map].
    assert (Hc : eval E (coord false i0) h = Ok (PFlt x, h)).
    { apply pt_coord; auto; [now apply (HPr oc)|]. rewrite <- (Nat.add_0_r i0). now apply HP. }
    assert (Hg : gp_env gs i0 gp E) by (rewrite <- (Nat.add_0_r i0); now apply HG).
    assert (Next : forall y r oc1 E1 h2, E1 (nm1 "x_" i0) = Some (PFlt y) -> (forall n, n <> nm1 "x_" i0 -> E1 n = E n) ->
      goes (gen_extract false vv allocate xm i0) E h E1 h2 -> hr oc1 h2 -> go_on y (extract1 xm vv allocate gps' pt' oc1) = Ok r ->
      match r with
      | Go1 xs oc' => exists E' h', goes (gen_extract false vv allocate xm i0 ++ flat_map (gen_extract false vv allocate xm) (seq (S i0) (List.length gps'))) E h E' h' /\ hr oc' h' /\ xframe i0 E E' /\
          forall i x, nth_error xs i = Some x -> E' (nm1 "x_" (i0 + i)) = Some (PFlt x)
      | Ret1 v oc' => exists w E' h' oc'', block (gen_extract false vv allocate xm i0 ++ flat_map (gen_extract false vv allocate xm) (seq (S i0) (List.length gps'))) E h = Ok (Ret w, E', h') /\
          returned v w h' /\ hr oc'' h' /\ (allocate = false -> oc'' = oc')
      end).
    { clear H Hs y r. intros y r oc1 E1 h2 X1 F1 R1 HR1 H. unfold go_on in H. apply bind_ok in H as (c & Hc1 & H).
      assert (XF : xframe i0 E E1) by (intros n Hn'; apply F1; apply Hn'; lia).
      assert (J := fun A B F => IH (S i0) pt' c oc1 E1 h2 A B HR1 F Hc1).
      assert (A : forall i gp, nth_error gps' i = Some gp -> gp_env gs (S i0 + i) gp E1).
      { intros i gp' Hgp'. eapply xframe_gp; eauto. replace (S i0 + i)%nat with (i0 + S i)%nat by lia. now apply HG. }
      assert (B : forall i x, nth_error pt' i = Some x -> nth_error pt (S i0 + i) = Some x).
      { intros i x' Hx'. replace (S i0 + i)%nat with (i0 + S i)%nat by lia. now apply HP. }
      specialize (J A B (xframe_fixed _ _ _ _ _ _ XF HF)). destruct c as [xs oc2|v oc2]; injection H as <-.
      - destruct J as (E2 & h3 & R2 & HR2 & F2 & X2). exists E2, h3. split; [eapply goes_app; eauto|]. split; auto. split; [eapply xframe_cons; eauto|].
        intros [|i] x' Hx'.
        + injection Hx' as <-. rewrite Nat.add_0_r, F2; auto. intros j Hj. apply nm1_neq_dim; auto. lia.
        + replace (i0 + S i)%nat with (S i0 + i)%nat by lia. now apply X2.
      - destruct J as (w & E2 & h3 & oc3 & R2 & Q2). exists w, E2, h3, oc3. split; auto. eapply block_goes; eauto. }
    destruct y as [y|].
    + destruct (extract_some G call fuel false vv allocate xm gs i0 E h gp x y Hg Hc Hs) as (E1 & R1 & X1 & F1).
      eapply Next; eauto.
    + pose proof (extract_none G call fuel false vv allocate xm gs i0 E h gp x Hg Hc Hs) as R1.
      set (E1 := upd E (nm1 "x_" i0) (PFlt x)) in *.
      assert (XF : xframe i0 E E1) by (intros n Hn'; apply upd_other; apply Hn'; lia).
      pose proof (xframe_fixed _ _ _ _ _ _ XF HF) as HF1. unfold gen_outside in R1. destruct vv eqn:V.
      * destruct oc as [om|]; [|discriminate]. destruct HR as [O HS].
        destruct (fill_all G call fuel h1 lo (Hlo O) om h E1) as (h2 & R2 & S2); auto; [now apply HF1|].
        rewrite block_cons, R2 in R1. cbn [bind] in R1. destruct allocate eqn:A.
        -- injection H as <-. rewrite block_last in R1. cbn [PySem.exec] in R1.
           rewrite (ev_name G call E1 "out" h2 (PArr lo [])) in R1 by now apply HF1. cbn [bind] in R1.
           exists (PArr lo []), E1, h2, (Some (afill0 om)). split; [apply block_stops; [exact R1|discriminate]|]. repeat split; auto; try discriminate.
        -- assert (HR2 : hr (Some (afill0 om)) h2) by (split; auto).
           eapply Next; [| |exact R1|exact HR2|exact H]; [apply upd_same|]. intros n Hn. now apply upd_other.
      * injection H as <-. rewrite block_cons in R1. unfold set in R1. rewrite exec_set, ev_f0 in R1. cbn [bind] in R1. rewrite block_last in R1.
        cbn [PySem.exec] in R1. rewrite (ev_name G call _ "val" h (PFlt (n_ofZ 0))) in R1 by apply upd_same. cbn [bind] in R1.
        eexists _, _, h, oc. split; [apply block_stops; [exact R1|discriminate]|]. repeat split; auto.
Qed.

(** The rest of [eval_point] after the allocation. *)
Definition point_rest (oc : option (arr T)) : res (pyval T * option (arr T)) :=
  co <- extract1 xm vv allocate gps pt oc ;;
  match co with
  | Ret1 v o => Ok (v, if allocate then None else o)
  | Go1 xs out1 =>
      brs <- mapM2 SplineModel.bracket gps xs ;;
      if vv then
        match out1 with
        | None => Err NameErr
        | Some o =>
            o' <- (match orders with
                   | None => foldM (fun o ix => v <- get_value k brs (zeros_like brs) C [ix] ;; aset o [ix] v) (zrange nv) o
                   | Some os => foldM (fun o ix => vals <- mapM (fun oo => get_value k brs oo C [ix]) os ;; store_all [ix] vals o) (zrange nv) o
                   end) ;;
            if allocate then Ok (VArr o', None) else Ok (VNone, Some o')
        end
      else
        match orders with
        | Some os =>
            vals <- mapM (fun oo => get_value k brs oo C []) os ;;
            if allocate then Ok (VTuple vals, None)
            else match out1 with None => Err NameErr | Some o => o' <- store_all [] vals o ;; Ok (VNone, Some o') end
        | None => v <- get_value k brs (zeros_like brs) C [] ;; Ok (VNum v, if allocate then None else out1)
        end
  end.
Definition point_body : list stmt :=
  flat_map (gen_recover false types) (dims types) ++ flat_map (gen_extract false vv allocate xm) (dims types) ++ gen_cell k types orders ++
  gen_reduce k false vv allocate types orders ++ if vv then return_out allocate else [].

Lemma point_run oc v fin E h : hr oc h -> fixed E -> point_rest oc = Ok (v, fin) ->
  exists g w E' h' oc', block point_body E h = Ok (g, E', h') /\ (g = Ret w \/ (g = Nxt /\ w = PNone)) /\ returned v w h' /\ hr oc' h' /\
    (allocate = false -> oc' = fin).
Proof.
  intros HR HF H. unfold point_body, dims, GenParts.types. rewrite map_length. fold types.
  destruct (recover_run G call fuel false vv grid gs Cv Pv nv outp lo gps Hgps h E) as (E1 & R1 & F1 & X1 & G1); auto; [now apply (HDr oc)|].
  unfold point_rest in H. apply bind_ok in H as (co & Hco & H). pose proof (gps_length false grid gps Hgps) as Lg.
  pose proof (extract1_run gps 0 pt co oc E1 h) as X. rewrite Lg in X.
  specialize (X (fun i gp Hgp => G1 i ltac:(rewrite <- Lg; apply nth_error_Some; congruence) gp Hgp) (fun i x e => e) HR X1 Hco).
  destruct co as [xs out1|v0 o0].
  - destruct X as (E2 & h2 & R2 & HR2 & F2 & X2). apply bind_ok in H as (brs & Hb & H).
    assert (Lb : List.length brs = List.length grid) by (apply mapM2_nth in Hb as (_ & L & _); lia).
    assert (D : (exists os, orders = Some os) \/ orders = None) by (clear; destruct orders; eauto).
    assert (BL : blends_ok k orders brs).
    { apply blends_from; auto. intros os Ho. rewrite Ho in H. destruct vv.
      - assert (1 <= nv) by (apply Hnv; auto; congruence). destruct out1 as [o1|]; [|discriminate]. apply bind_ok in H as (o2 & H & _).
        rewrite zrange_cons in H by lia. cbn [foldM] in H.
        apply bind_ok in H as (o3 & H & _). apply bind_ok in H as (vals & H & _). eauto.
      - apply bind_ok in H as (vals & H & _). eauto. }
    destruct (cell_run G call fuel HCd HdCd k false vv orders grid gs Cv Pv nv outp h1 lo Hlo gps Hgps brs fixed h2 E2 xs)
      as (E3 & R3 & F3 & FX3 & G3 & Y3); auto.
    + apply fixed_glob; assumption.
    + now apply (HDr out1).
    + eapply xframe_fixed; eauto.
    + eapply xframe_gpall; eauto.
    + assert (OK := orders_ok_brs brs Lb).
      assert (Pre : forall l r, block l E3 h2 = r -> block (flat_map (gen_recover false types) (seq 0 (List.length grid)) ++
        flat_map (gen_extract false vv allocate xm) (seq 0 (List.length grid)) ++ gen_cell k types orders ++ l) E h = r).
      { intros l r Hl. eapply block_goes; [exact R1|]. eapply block_goes; [exact R2|]. eapply block_goes; [exact R3|exact Hl]. }
      destruct (bool_dec vv true) as [V|V].
      * rewrite V in H. destruct out1 as [om|]; [|discriminate]. apply bind_ok in H as (om' & Hf & H). destruct HR2 as [O HS2].
        destruct (comps_run G call fuel k false vv allocate orders grid gs C Cv Pv nv outp h1 lo Hlo gps Hgps brs 0 om om' E3 h2) as (E4 & h4 & R4 & S4 & V4); auto.
        { intros o h' HS. apply (HCr (Some o)). split; auto. }
        { discriminate. }
        { unfold fill_ix, zpre. cbn [app]. clear -Hf. destruct orders; exact Hf. }
        replace (if vv then return_out allocate else []) with (return_out allocate) by now rewrite V.
        unfold return_out. destruct (bool_dec allocate true) as [A|A].
        -- rewrite A in H. injection H as <- <-. exists (Ret (PArr lo [])), (PArr lo []), E4, h4, (Some om'). split.
           ++ apply Pre. eapply block_goes; [exact R4|]. rewrite A, block_last. cbn [PySem.exec].
              assert (FX4 : fixed E4) by (eapply vframe_fixed; eauto).
              rewrite (ev_name G call E4 "out" h4 (PArr lo [])) by (apply FX4; auto). reflexivity.
           ++ split; [now left|]. cbn. repeat split; auto. congruence.
        -- apply not_true_is_false in A. rewrite A in H. injection H as <- <-. exists Nxt, PNone, E4, h4, (Some om'). split.
           ++ apply Pre. eapply block_goes; [exact R4|]. now rewrite A.
           ++ repeat split; auto.
      * apply not_true_is_false in V. rewrite V in H. replace (if vv then return_out allocate else []) with (@nil stmt) by now rewrite V.
        rewrite app_nil_r. unfold orders_ok in OK.
        pose proof (HCr _ _ HR2) as HC2.
        destruct D as [[os Eo]|Eo]; rewrite Eo in H, OK; rewrite <- Eo in OK.
        -- apply bind_ok in H as (vals & Hv & H).
           destruct (vals_run G call fuel k vv orders grid gs C Cv Pv nv outp lo brs [] [] h2 HC2 os vals E3) as (E4 & R4 & V4 & I4 & W4 & _);
             auto; [now left|]. destruct (bool_dec allocate true) as [A|A].
           ++ rewrite A in H. injection H as <- <-. eexists (Ret _), (PTup (map PFlt vals)), _, h2, out1. split; [|split; [now left|]].
              ** apply Pre. replace (gen_reduce k false vv allocate types orders) with
                   (gen_vals k [] os ++ [set "val" (ETup (map (fun oo => EName (val_name oo)) os)); SRet (Some (EName "val"))])
                   by (unfold gen_reduce; now rewrite V, Eo, A).
                 eapply block_goes; [exact R4|]. rewrite block_cons. unfold set. rewrite exec_set.
                 assert (Ev : eval E4 (ETup (map (fun oo => EName (val_name oo)) os)) h2 = Ok (PTup (map PFlt vals), h2)).
                 { change (eval E4 (ETup (map (fun oo => EName (val_name oo)) os)) h2) with ('(vs, h) <- evals G call E4 (map (fun oo => EName (val_name oo)) os) h2 ;; Ok (PTup vs, h)).
                   assert (Es : evals G call E4 (map (fun oo => EName (val_name oo)) os) h2 = Ok (map PFlt vals, h2)).
                   { clear -W4. induction W4 as [|oo v os vals W1 W2 IH]; [reflexivity|]. cbn [map].
                     rewrite (evals_cons G call _ _ _ _ _ _ (ev_name G call E4 _ h2 _ W1)), IH. reflexivity. }
                   rewrite Es. reflexivity. }
                 rewrite Ev. cbn [bind]. rewrite block_last. cbn [PySem.exec]. erewrite ev_name by apply upd_same. reflexivity.
              ** repeat split; auto. congruence.
           ++ apply not_true_is_false in A. rewrite A in H. destruct out1 as [om|]; [|discriminate]. apply bind_ok in H as (om' & Hs & H). injection H as <- <-.
              destruct HR2 as [O HS2].
              destruct (stores_run G call fuel vv gs Cv Pv nv outp h1 lo Hlo E4 [] []) with (os := os) (vals := vals) (j := 0) (om := om) (om' := om') (h := h2)
                as (h5 & R5 & S5); auto.
              { eapply vframe_fixed; eauto. }
              exists Nxt, PNone, E4, h5, (Some om'). split; [|repeat split; auto].
              apply Pre. replace (gen_reduce k false vv allocate types orders) with (gen_vals k [] os ++ gen_stores false [] os)
                by (unfold gen_reduce; now rewrite V, Eo, A).
              eapply block_goes; [exact R4|exact R5].
        -- apply bind_ok in H as (v0 & Hv & H). injection H as <- <-.
           assert (Ev : eval E3 (gen_values k (zero_order types) []) h2 = Ok (PFlt v0, h2)).
           { rewrite (zero_like grid brs) by auto. eapply value_eval with (Cv := Cv) (C := C); eauto; [apply FX3|apply OK|reflexivity]. }
           eexists (Ret _), (PFlt v0), _, h2, out1. split; [|split; [now left|]].
           ++ apply Pre. replace (gen_reduce k false vv allocate types orders) with [set "val" (gen_values k (zero_order types) []); SRet (Some (EName "val"))]
                by (unfold gen_reduce; now rewrite V, Eo).
              rewrite block_cons. unfold set. rewrite exec_set, Ev. cbn [bind]. rewrite block_last. cbn [PySem.exec].
              erewrite ev_name by apply upd_same. reflexivity.
           ++ repeat split; auto. intros ->. reflexivity.
  - injection H as <- <-. destruct X as (w & E2 & h2 & oc2 & R2 & Q2 & HR2 & A2). exists (Ret w), w, E2, h2, oc2. split.
    + eapply block_goes; [exact R1|]. apply block_stops; [exact R2|discriminate].
    + repeat split; auto. intros A. rewrite A. auto.
Qed.
End Point.
End Refine.
