(** The blocks of the generated programs that work on one dimension. *)
From Coq Require Import ZArith List Bool String Lia.
From Verif Require Import Base BaseFacts SplineModel PySyntax PySem PySemFacts SpecText GenModel GenNames GenPhase.
Import ListNotations.
Open Scope list_scope.
Open Scope Z_scope.
Open Scope num_scope.

Lemma nm1_neq p q i j : nodigit p && nodigit q && negb (String.eqb p "d_") && negb (String.eqb q "d_") && negb (String.eqb p q) = true ->
  nm1 p i <> nm1 q j.
Proof.
  rewrite !andb_true_iff, !negb_true_iff, !String.eqb_neq. intros ((((H1 & H2) & H3) & H4) & H5) E. now apply nm1_inj in E.
Qed.
Lemma nm1_neq_dim p i j : nodigit p && negb (String.eqb p "d_") = true -> i <> j -> nm1 p i <> nm1 p j.
Proof. rewrite andb_true_iff, negb_true_iff, String.eqb_neq. intros [H1 H2] N E. apply nm1_inj in E; auto. tauto. Qed.
Lemma fix_nm1 x p i : nodigit x = true -> x <> nm1 p i.
Proof. intros H. rewrite nm1_nm. now apply nodigit_nm. Qed.
Lemma fix_nm2 x p i j : nodigit x = true -> x <> nm2 p i j.
Proof. intros H. rewrite nm2_nm. now apply nodigit_nm. Qed.
Lemma fix_phi x l i j : nodigit x = true -> x <> phi l i j.
Proof. intros H. rewrite phi_nm. now apply nodigit_nm. Qed.
Definition plainb (p : string) : bool :=
  nodigit p && negb (String.eqb p "d_") && negb (String.eqb p "Φ_") && negb (String.eqb p "d_Φ_").
Lemma plainb_ok p : plainb p = true -> plain p.
Proof. unfold plainb, plain. rewrite !andb_true_iff, !negb_true_iff, !String.eqb_neq. tauto. Qed.
Lemma nm1_phi p i l j k : plainb p = true -> nm1 p i <> phi l j k.
Proof. intros H E. symmetry in E. revert E. apply phi_nm1. now apply plainb_ok. Qed.
Lemma nm2_phi p i m l j k : plainb p = true -> nm2 p i m <> phi l j k.
Proof. intros H E. symmetry in E. revert E. apply phi_nm2. now apply plainb_ok. Qed.
Lemma phi_nm2' l i j p i' j' : plainb p = true -> phi l i j <> nm2 p i' j'.
Proof. intros H. apply phi_nm2. now apply plainb_ok. Qed.
Lemma phi_nm1' l i j p i' : plainb p = true -> phi l i j <> nm1 p i'.
Proof. intros H. apply phi_nm1. now apply plainb_ok. Qed.
Lemma phi_neq l i j j' : Nat.eqb j j' = false -> phi l i j <> phi l i j'.
Proof.
  intros H E. rewrite !phi_nm in E. apply nm_inj in E as (_ & _ & E); auto using good_phi; try reflexivity.
  injection E as E. apply dec_inj in E. subst. now rewrite Nat.eqb_refl in H.
Qed.
Lemma nm2_neq p i j j' : nodigit p && negb (String.eqb p "d_") = true -> Nat.eqb j j' = false -> nm2 p i j <> nm2 p i j'.
Proof.
  rewrite andb_true_iff, negb_true_iff, String.eqb_neq. intros [H1 H2] H E. apply nm2_inj in E; auto. subst. now rewrite Nat.eqb_refl in H.
Qed.
Lemma nm1_nm2_neq p q i j k : nodigit p && nodigit q && negb (String.eqb p "d_") && negb (String.eqb q "d_") = true -> nm1 p i <> nm2 q j k.
Proof. rewrite !andb_true_iff, !negb_true_iff, !String.eqb_neq. intros (((H1 & H2) & H3) & H4). now apply nm1_nm2. Qed.

Ltac neq :=
  solve [ assumption
        | apply nm1_neq; reflexivity | apply nm1_phi; reflexivity | apply nm2_phi; reflexivity | apply phi_nm2'; reflexivity
        | apply phi_nm1'; reflexivity | apply phi_neq; reflexivity | apply nm2_neq; reflexivity | apply nm1_nm2_neq; reflexivity
        | apply fix_nm1; reflexivity | apply fix_nm2; reflexivity | apply fix_phi; reflexivity
        | let E := fresh in intros E; symmetry in E; revert E;
          first [ apply nm1_nm2_neq; reflexivity | apply fix_nm1; reflexivity | apply fix_nm2; reflexivity | apply fix_phi; reflexivity ]
        | discriminate ].
Ltac lk := repeat first [ rewrite upd_same | rewrite upd_other by neq ]; try eassumption; try reflexivity.
Ltac is_named := first [ apply nm1_named; [reflexivity|discriminate|discriminate] | apply nm2_named; [reflexivity|discriminate|discriminate] | apply phi_named ].
Ltac framed := repeat (apply frame_upd; [is_named|]); apply frame_refl.

Section Blocks.
Context {T : Type} {NT : Num T}.
Variable G : env T.
Variable call : string -> list (val T) -> list (string * val T) -> heap T -> res (val T * heap T).
Variable fuel : nat.
Notation eval := (eval G call).
Notation subs := (subs G call).
Notation block := (block G call fuel).
Notation goes := (goes G call fuel).
Implicit Types (E : env T) (h : heap T) (v : val T).

(** ** Values *)
(** [v] is a whole array of floats, [a]. *)
Definition reads h v (a : arr T) : Prop := array_of h v = Ok (OF a, []).
Definition dim_val h v (g : gdim T) : Prop :=
  match g with Unif a b n => v = PTup [PFlt a; PFlt b; PInt n] | Nonunif gc => reads h v (vecT gc) end.

Lemma reads_sub h v a zs : reads h v a -> inb (ashape a) zs = true -> subscript h v (map SIx zs) = Ok (PFlt (acell a zs)).
Proof.
  intros H B. pose proof (inb_length _ _ B) as L. assert (N : Forall (fun z => 0 <= z) zs).
  { apply inb_spec in B. clear -B. induction B; constructor; auto. lia. }
  assert (A : forall zs, all_ix (map SIx zs) = Some zs) by (clear; induction zs; cbn; auto; now rewrite IHzs).
  unfold reads in H. destruct v; try discriminate H; unfold subscript; rewrite H; cbn [bind oshape];
    rewrite A, vshape_nil, L, Nat.eqb_refl, wraps_pos by auto; cbn [vmerge oget]; now rewrite aget_ok.
Qed.
Lemma vec_in {l : list T} {z x} : lget l z = Ok x -> inb (ashape (vecT l)) [z] = true /\ acell (vecT l) [z] = x.
Proof.
  intros H. apply lget_inv in H as [B N]. cbn. rewrite andb_true_r. split; [lia|]. now apply nth_error_nth.
Qed.
Lemma vec_sub h v (l : list T) z x : reads h v (vecT l) -> lget l z = Ok x -> subscript h v [SIx z] = Ok (PFlt x).
Proof. intros H1 H2. destruct (vec_in H2) as [B <-]. now apply (reads_sub _ _ _ [z]). Qed.
Lemma vec_elements h v (l : list T) : reads h v (vecT l) -> elements h v = Ok l.
Proof.
  intros H. unfold elements, content. rewrite H. cbn [bind oview]. cbn [ashape vshape vecT].
  erewrite mapM_ext, mapM_Ok; [now rewrite map_nth_zrange with (d := n_ofZ 0)|].
  intros z Hz. apply zrange_In in Hz. unfold aget. cbn [ashape inb acell vmerge hd].
  replace (0 <=? z) with true by lia. replace (z <? zlen l) with true by lia. reflexivity.
Qed.
Lemma search_ok h v l x : reads h v (vecT l) -> builtin "searchsorted" [v; PFlt x] h = Some (Ok (PInt (searchsorted l x), h)).
Proof. intros H. cbn -[elements]. rewrite (vec_elements _ _ _ H). reflexivity. Qed.
Lemma reads_dims h v a : reads h v a -> vdims h v = Ok (ashape a).
Proof. intros H. unfold vdims. rewrite H. cbn [bind oshape]. now rewrite vshape_nil. Qed.
Lemma tup_sub h (l : list (val T)) i v : nth_error l i = Some v -> subscript h (PTup l) [SIx (Z.of_nat i)] = Ok v.
Proof.
  intros H. cbn [subscript]. rewrite wrap_pos by lia. unfold lget. destruct (Z.ltb_spec (Z.of_nat i) 0); [lia|]. now rewrite Nat2Z.id, H.
Qed.
Lemma div_ok h x y q : divE x y = Ok q -> binop h "/" (PFlt x) (PFlt y) = Ok (PFlt q).
Proof. intros H. unfold binop, arith. cbn -[divE]. now rewrite H. Qed.

Ltac ev :=
  lazymatch goal with
  | |- @PySem.eval _ _ _ _ _ ?e _ = _ =>
    lazymatch e with
    | EName _ => eapply ev_name; solve [lk]
    | f1 => apply ev_f1
    | f0 => apply ev_f0
    | ENeg f1 => apply ev_mf1
    | EInt _ => apply ev_int
    | EBin "/" _ _ => eapply ev_bin; [ev|ev|eapply div_ok; eassumption]
    | EBin _ _ _ => eapply ev_bin; [ev|ev|reflexivity]
    | ECmp _ _ => eapply ev_cmp; [ev|ev|reflexivity]
    | ECall (EAttr _ _) _ _ => eapply ev_np2; [ev|ev|eapply search_ok; eassumption]
    | ECall _ [_; _] _ => eapply ev_call2; [discriminate|ev|ev|reflexivity]
    | ECall _ [_] _ => eapply ev_call1; [discriminate|ev|reflexivity]
    | ESub _ _ => eapply ev_sub; [ev|sub|first [eapply tup_sub; eassumption | eapply vec_sub; eassumption | reflexivity]]
    | EAttr _ _ => eapply ev_shape; [ev|eapply reads_dims; eassumption]
    end
  end
with sub := first [ apply subs_nil | eapply subs_cons; [ev|sub] ].

(** ** Recovering the parameters of the grid *)
Section Dims.
Variable gs : list (val T).
Definition gp_env (i : nat) (gp : @gpar T) E : Prop :=
  match gp with
  | PU a b n del => E (nm1 "a_" i) = Some (PFlt a) /\ E (nm1 "b_" i) = Some (PFlt b) /\ E (nm1 "n_" i) = Some (PInt n) /\
      E (nm1 "δ_" i) = Some (PFlt del)
  | PN gc N ab => E (nm1 "gc_" i) = nth_error gs i /\ E (nm1 "N_" i) = Some (PInt N) /\
      match ab with Some (a, b) => E (nm1 "a_" i) = Some (PFlt a) /\ E (nm1 "b_" i) = Some (PFlt b) | None => True end
  end.
Lemma gp_local i gp : local i (gp_env i gp).
Proof.
  intros E E' H. destruct gp as [a b n del|gc N ab]; cbn [gp_env].
  - rewrite !H by is_named. auto.
  - rewrite !H by is_named. destruct ab as [[a b]|]; auto. 
Qed.
Definition dim_recover (vec : bool) (g : gdim T) : res (@gpar T) := if vec then recoverN g else recover1 g.

Lemma recover_block vec types i E h g v gp : nth_error gs i = Some v -> dim_val h v g -> nth i types true = negb (is_nonunif g) ->
  E "grid"%string = Some (PTup gs) -> dim_recover vec g = Ok gp ->
  exists E', goes (gen_recover vec types i) E h E' h /\ frame i E E' /\ gp_env i gp E'.
Proof.
  intros Hv Hd Ht Hg Hr. unfold gen_recover. rewrite Ht. destruct g as [a b n|gc]; cbn [is_nonunif negb dim_val] in *.
  - assert (R : exists del, divE (n_ofZ n -! n_ofZ 1) (b -! a) = Ok del /\ gp = PU a b n del).
    { destruct vec; cbn [dim_recover recoverN recover1] in Hr; apply bind_ok in Hr as (del & H1 & H2); injection H2 as <-; eauto. }
    destruct R as (del & Hdel & ->). subst v. unfold dim_sub, v1, zi.
    eexists. split; [|split].
    + do 4 (eapply goes_set; [ev|]). apply goes_nil.
    + framed.
    + cbn [gp_env]. repeat split; lk.
  - destruct vec; cbn [dim_recover recoverN recover1] in Hr.
    + apply bind_ok in Hr as (a & Ha & Hr). apply bind_ok in Hr as (b & Hb & Hr). injection Hr as <-. unfold v1, zi.
      eexists. split; [|split].
      * cbn [app]. eapply goes_set; [ev|]. eapply goes_set; [ev|]. eapply goes_set; [ev|]. eapply goes_set; [ev|]. apply goes_nil.
      * framed.
      * cbn [gp_env]. repeat split; lk. now symmetry.
    + injection Hr as <-. unfold v1, zi. eexists. split; [|split].
      * cbn [app]. eapply goes_set; [ev|]. eapply goes_set; [ev|]. apply goes_nil.
      * framed.
      * cbn [gp_env]. repeat split; lk. now symmetry.
Qed.

(** ** Cell and barycentric coordinate *)
Definition br_env (i : nat) (br : Z * T * T) E : Prop :=
  let '(z, lam, del) := br in
  E (nm1 "i_" i) = Some (PInt z) /\ E (nm1 "λ_" i) = Some (PFlt lam) /\ E (nm1 "δ_" i) = Some (PFlt del).
Lemma br_local i br : local i (br_env i br).
Proof. intros E E' H. destruct br as [[z lam] del]. cbn [br_env]. rewrite !H by is_named. auto. Qed.

Lemma bracket_block types i E h g v gp x br : nth_error gs i = Some v -> dim_val h v g -> nth i types true = negb (is_nonunif g) ->
  (exists vec, dim_recover vec g = Ok gp) -> gp_env i gp E -> E (nm1 "x_" i) = Some (PFlt x) -> SplineModel.bracket gp x = Ok br ->
  exists E', goes (gen_bracket types i) E h E' h /\ frame i E E' /\ gp_env i gp E' /\ br_env i br E'.
Proof.
  intros Hv Hd Ht [vec Hr] Hg Hx Hb. unfold gen_bracket. rewrite Ht. destruct g as [a b n|gc]; cbn [is_nonunif negb dim_val] in *.
  - assert (R : exists del, gp = PU a b n del).
    { destruct vec; cbn [dim_recover recoverN recover1] in Hr; apply bind_ok in Hr as (del & H1 & H2); injection H2 as <-; eauto. }
    destruct R as (del & ->). cbn [gp_env] in Hg. destruct Hg as (Ha & Hbb & Hn & Hde). cbn [SplineModel.bracket] in Hb. injection Hb as <-.
    unfold v1, mul. eexists. split; [|split; [|split]].
    + do 4 (eapply goes_set; [ev|]). apply goes_nil.
    + framed.
    + cbn [gp_env]. repeat split; lk.
    + cbn [br_env]. repeat split; lk.
  - assert (R : exists ab, gp = PN gc (zlen gc) ab).
    { destruct vec; cbn [dim_recover recoverN recover1] in Hr.
      - apply bind_ok in Hr as (a & _ & Hr). apply bind_ok in Hr as (b & _ & Hr). injection Hr as <-. eauto.
      - injection Hr as <-. eauto. }
    destruct R as (ab & ->). cbn [gp_env] in Hg. destruct Hg as (Hgc & HN & Hab). rewrite Hv in Hgc. cbn [SplineModel.bracket] in Hb.
    apply bind_ok in Hb as (g1 & Hg1 & Hb). apply bind_ok in Hb as (g0 & Hg0 & Hb). apply bind_ok in Hb as (lam & Hlam & Hb). injection Hb as <-.
    unfold v1. eexists. split; [|split; [|split]].
    + do 4 (eapply goes_set; [ev|]). apply goes_nil.
    + framed.
    + cbn [gp_env]. rewrite Hv. repeat split; lk.
    + cbn [br_env]. repeat split; lk.
Qed.
End Dims.

(** ** Weights *)
Definition table (f : Z -> Z -> T) : arr T := mkArr [4; 4] (fun idx => match idx with [i; j] => f i j | _ => n_ofZ 0 end).
Hypothesis HCd : G "Cd"%string = Some (PLit (OF (table Cd))).
Hypothesis HdCd : G "dCd"%string = Some (PLit (OF (table dCd))).

Definition bases_frame (l : Z) (i : nat) E E' : Prop :=
  forall x, (forall j, x <> phi l i j) -> (forall j, x <> nm2 "μ_" i j) -> E' x = E x.
Lemma bf_refl l i E : bases_frame l i E E.
Proof. intros x _ _. reflexivity. Qed.
Lemma bf_phi l i E E' j v : bases_frame l i E E' -> bases_frame l i E (upd E' (phi l i j) v).
Proof. intros H x H1 H2. rewrite upd_other; auto. Qed.
Lemma bf_mu l i E E' j v : bases_frame l i E E' -> bases_frame l i E (upd E' (nm2 "μ_" i j) v).
Proof. intros H x H1 H2. rewrite upd_other; auto. Qed.
Ltac bframed := repeat first [apply bf_phi | apply bf_mu]; apply bf_refl.
Lemma bf_frame l i E E' : bases_frame l i E E' -> frame i E E'.
Proof.
  intros H x Hx. apply H; intros j ->; apply Hx.
  - apply phi_named.
  - apply nm2_named; [reflexivity|discriminate|discriminate].
Qed.
Lemma bf_nm1 l i E E' p : plainb p = true -> bases_frame l i E E' -> E' (nm1 p i) = E (nm1 p i).
Proof.
  intros Hp H. apply H; intros j.
  - now apply nm1_phi.
  - apply nm1_nm2; try reflexivity; try discriminate; apply plainb_ok in Hp; destruct Hp as (? & ? & _); auto.
Qed.

Lemma tab_Cd E h j m : E "Cd"%string = None -> (j < 4)%nat -> (m < 4)%nat ->
  eval E (tab "Cd" j m) h = Ok (PFlt (Cd (Z.of_nat j) (Z.of_nat m)), h).
Proof.
  intros HE Hj Hm. unfold tab, zi. eapply ev_sub; [eapply ev_global; eassumption|eapply subs_cons; [apply ev_int|eapply subs_cons; [apply ev_int|apply subs_nil]]|].
  apply (reads_sub h (PLit (OF (table Cd))) (table Cd) [Z.of_nat j; Z.of_nat m]); [reflexivity|]. cbn [ashape table inb]. lia.
Qed.
Lemma tab_dCd E h j m : E "dCd"%string = None -> (j < 4)%nat -> (m < 4)%nat ->
  eval E (tab "dCd" j m) h = Ok (PFlt (dCd (Z.of_nat j) (Z.of_nat m)), h).
Proof.
  intros HE Hj Hm. unfold tab, zi. eapply ev_sub; [eapply ev_global; eassumption|eapply subs_cons; [apply ev_int|eapply subs_cons; [apply ev_int|apply subs_nil]]|].
  apply (reads_sub h (PLit (OF (table dCd))) (table dCd) [Z.of_nat j; Z.of_nat m]); [reflexivity|]. cbn [ashape table inb]. lia.
Qed.

Ltac evt :=
  lazymatch goal with
  | |- @PySem.eval _ _ _ _ _ ?e _ = _ =>
    lazymatch e with
    | tab "Cd" _ _ => apply tab_Cd; [lk|lia|lia]
    | tab "dCd" _ _ => apply tab_dCd; [lk|lia|lia]
    | EBin _ _ _ => eapply ev_bin; [evt|evt|reflexivity]
    | _ => ev
    end
  end.

Definition ws_env (i : nat) (l : Z) (ws : list T) E : Prop :=
  forall j w, nth_error ws j = Some w -> E (phi l i j) = Some (PFlt w).

Lemma ws_two i l w0 w1 E : E (phi l i 0) = Some (PFlt w0) -> E (phi l i 1) = Some (PFlt w1) -> ws_env i l [w0; w1] E.
Proof. intros H0 H1 [|[|j]] w H; cbn in H; try congruence. destruct j; discriminate. Qed.
Lemma ws_four i l w0 w1 w2 w3 E : E (phi l i 0) = Some (PFlt w0) -> E (phi l i 1) = Some (PFlt w1) ->
  E (phi l i 2) = Some (PFlt w2) -> E (phi l i 3) = Some (PFlt w3) -> ws_env i l [w0; w1; w2; w3] E.
Proof. intros H0 H1 H2 H3 [|[|[|[|j]]]] w H; cbn in H; try congruence. destruct j; discriminate. Qed.

Lemma linear_block l i E h z lam del ws : br_env i (z, lam, del) E -> blend_linear l lam del = Ok ws ->
  exists E', goes (gen_linear l i) E h E' h /\ bases_frame l i E E' /\ ws_env i l ws E'.
Proof.
  intros (Hi & Hl & Hd) H. unfold gen_linear, v1. unfold blend_linear in H. destruct (l =? 0).
  - injection H as <-. eexists. split; [do 2 (eapply goes_set; [ev|]); apply goes_nil|]. split; [bframed|]. apply ws_two; lk.
  - destruct (l =? 1).
    + apply bind_ok in H as (p0 & H0 & H). apply bind_ok in H as (p1 & H1 & H). injection H as <-.
      eexists. split; [do 2 (eapply goes_set; [ev|]); apply goes_nil|]. split; [bframed|]. apply ws_two; lk.
    + injection H as <-. eexists. split; [do 2 (eapply goes_set; [ev|]); apply goes_nil|]. split; [bframed|]. apply ws_two; lk.
Qed.

Definition mu_env (i : nat) (m0 m1 m2 m3 : T) E : Prop :=
  E (nm2 "μ_" i 0) = Some (PFlt m0) /\ E (nm2 "μ_" i 1) = Some (PFlt m1) /\ E (nm2 "μ_" i 2) = Some (PFlt m2) /\ E (nm2 "μ_" i 3) = Some (PFlt m3).
Lemma cubic_tail l i E h lam m0 m1 m2 m3 : E "Cd"%string = None -> E "dCd"%string = None ->
  E (nm1 "λ_" i) = Some (PFlt lam) -> mu_env i m0 m1 m2 m3 E ->
  exists E', goes (four_sets l i (fun _ _ => f0) ++
    [SIf (ECmp (v1 "λ_" i) [("<", EInt 0)%string]) (four_sets l i cub_left)
     [SIf (ECmp (v1 "λ_" i) [(">", EInt 1)%string]) (four_sets l i cub_right) (four_sets l i cub_mid)]]) E h E' h /\
    bases_frame l i E E' /\ ws_env i l (map (blend_cubic_j lam m0 m1 m2 m3) [0; 1; 2; 3]) E'.
Proof.
  intros HC HD Hl (H0 & H1 & H2 & H3). unfold four_sets, v1, cub_left, cub_right, cub_mid, mul, add, mu. cbn [seq map app].
  unfold blend_cubic_j. destruct (lam <?! n_ofZ 0) eqn:L0; [|destruct (n_ofZ 1 <?! lam) eqn:L1].
  - eexists. split; [|split].
    + do 4 (eapply goes_set; [ev|]). eapply goes_if; [eapply ev_cmp; [ev|ev|cbn; rewrite L0; reflexivity]| |apply goes_nil].
      cbv iota. do 4 (eapply goes_set; [evt|]). apply goes_nil.
    + bframed.
    + apply ws_four; lk.
  - eexists. split; [|split].
    + do 4 (eapply goes_set; [ev|]). eapply goes_if; [eapply ev_cmp; [ev|ev|cbn; rewrite L0; reflexivity]| |apply goes_nil].
      cbv iota. eapply goes_if; [eapply ev_cmp; [ev|ev|cbn; rewrite L1; reflexivity]| |apply goes_nil].
      cbv iota. do 4 (eapply goes_set; [evt|]). apply goes_nil.
    + bframed.
    + apply ws_four; lk.
  - eexists. split; [|split].
    + do 4 (eapply goes_set; [ev|]). eapply goes_if; [eapply ev_cmp; [ev|ev|cbn; rewrite L0; reflexivity]| |apply goes_nil].
      cbv iota. eapply goes_if; [eapply ev_cmp; [ev|ev|cbn; rewrite L1; reflexivity]| |apply goes_nil].
      cbv iota. do 4 (eapply goes_set; [evt|]). apply goes_nil.
    + bframed.
    + apply ws_four; lk.
Qed.
Lemma cubic_block l i E h z lam del ws : E "Cd"%string = None -> E "dCd"%string = None ->
  br_env i (z, lam, del) E -> blend_cubic l lam del = Ok ws ->
  exists E', goes (gen_cubic l i) E h E' h /\ bases_frame l i E E' /\ ws_env i l ws E'.
Proof.
  intros HC HD (Hi & Hl & Hd) H. unfold gen_cubic.
  assert (X : exists E' m0 m1 m2 m3, goes (gen_mus l i) E h E' h /\ bases_frame l i E E' /\ mu_env i m0 m1 m2 m3 E' /\
    ws = map (blend_cubic_j lam m0 m1 m2 m3) [0; 1; 2; 3]).
  { unfold blend_cubic in H. unfold gen_mus, v1, mul. destruct (l =? 0).
    - injection H as <-. do 5 eexists. split; [|split; [|split; [|reflexivity]]].
      + do 4 (eapply goes_set; [ev|]). apply goes_nil.
      + bframed.
      + repeat split; lk.
    - destruct (l =? 1); [|discriminate]. injection H as <-. do 5 eexists. split; [|split; [|split; [|reflexivity]]].
      + do 4 (eapply goes_set; [ev|]). apply goes_nil.
      + bframed.
      + repeat split; lk. }
  destruct X as (E1 & m0 & m1 & m2 & m3 & R1 & F1 & M1 & ->).
  assert (L1 : E1 (nm1 "λ_" i) = Some (PFlt lam)) by (rewrite (bf_nm1 l i E E1); auto).
  assert (F : forall x, nodigit x = true -> E1 x = E x) by (intros x Hx; apply F1; intros j; [now apply fix_phi|now apply fix_nm2]).
  destruct (cubic_tail l i E1 h lam m0 m1 m2 m3) as (E2 & R2 & F2 & W2); auto; [now rewrite F|now rewrite F|].
  exists E2. split; [eapply goes_app; eauto|]. split; auto. intros x Hx1 Hx2. rewrite F2, F1; auto.
Qed.
Lemma blend_block k l i E h z lam del ws : E "Cd"%string = None -> E "dCd"%string = None ->
  br_env i (z, lam, del) E -> blend k l lam del = Ok ws ->
  exists E', goes (gen_blend k l i) E h E' h /\ bases_frame l i E E' /\ ws_env i l ws E'.
Proof.
  intros HC HD Hb H. unfold gen_blend. unfold blend in H. destruct (k =? 1).
  - eapply linear_block; eauto.
  - destruct (k =? 3); [|discriminate]. eapply cubic_block; eauto.
Qed.

(** All the derivative orders of a dimension. *)
Lemma bases_block k ls i : forall E h z lam del, E "Cd"%string = None -> E "dCd"%string = None -> br_env i (z, lam, del) E ->
  Forall (fun l => 0 <= l) ls -> (forall l, In l ls -> exists ws, blend k l lam del = Ok ws) ->
  exists E', goes (flat_map (fun l => gen_blend k l i) ls) E h E' h /\ frame i E E' /\
    (forall p, plainb p = true -> E' (nm1 p i) = E (nm1 p i)) /\
    (forall l, In l ls -> forall ws, blend k l lam del = Ok ws -> ws_env i l ws E') /\
    (forall l, 0 <= l -> forall ws, blend k l lam del = Ok ws -> ws_env i l ws E -> ws_env i l ws E').
Proof.
  induction ls as [|l ls IH]; intros E h z lam del HC HD Hb Hp Hw; cbn [flat_map].
  - exists E. split; [apply goes_nil|]. split; [apply frame_refl|]. split; [auto|]. split; [easy|auto].
  - inversion Hp as [|? ? Hl Hp']; subst. destruct (Hw l) as [ws Hws]; [now left|].
    destruct (blend_block k l i E h z lam del ws) as (E1 & R1 & F1 & W1); auto.
    assert (N1 : forall p, plainb p = true -> E1 (nm1 p i) = E (nm1 p i)) by (intros; eapply bf_nm1; eauto).
    assert (F : forall x, nodigit x = true -> E1 x = E x) by (intros x Hx; apply F1; intros j; [now apply fix_phi|now apply fix_nm2]).
    assert (K1 : forall m, 0 <= m -> forall ws, blend k m lam del = Ok ws -> ws_env i m ws E -> ws_env i m ws E1).
    { intros m Hm ws' Hws' W. destruct (Z.eq_dec m l) as [->|Nm]; [assert (ws' = ws) as -> by congruence; exact W1|].
      intros j w Hj. rewrite F1; [now apply W| |].
      - intros j' E'. apply phi_inj in E'; lia.
      - intros j'. now apply phi_nm2'. }
    destruct (IH E1 h z lam del) as (E2 & R2 & F2 & N2 & W2 & K2); try (rewrite F; auto; fail); auto.
    + destruct Hb as (B1 & B2 & B3). cbn [br_env]. rewrite !N1 by reflexivity. auto.
    + intros m Hm. apply Hw. now right.
    + exists E2. split; [eapply goes_app; eauto|]. split; [eapply frame_trans; eauto using bf_frame|]. split; [intros; rewrite N2, N1; auto|]. split.
      * intros m [<-|Hm] ws' Hws'; [|now apply W2]. assert (ws' = ws) as -> by congruence. now apply K2.
      * intros m Hm ws' Hws' W. apply K2; auto.
Qed.
End Blocks.
