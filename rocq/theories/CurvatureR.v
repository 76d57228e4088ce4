(** Among all twice differentiable functions through the data the natural cubic spline has the
    least integral of the square of the second derivative (C70). *)
From Coq Require Import ZArith List Bool Reals Lia Lra Psatz ZifyBool.
From Coquelicot Require Import Coquelicot.
From Verif Require Import Base BaseFacts SplineModel Spec SpecError PrefilterModel EvalProps EvalValue EvalR WeightsR RSum EvalExact EvalRProps EvalCases
  PrefilterGeneric PrefilterPass SolverR PrefilterR PrefilterProps ErrorR CubicError.
Import ListNotations.
Open Scope R_scope.

(** ** A twice differentiable function on [a, b] as the restriction of one on the line *)
Definition rcont (f : R -> R) (x : R) : Prop :=
  forall eps, 0 < eps -> exists d, 0 < d /\ forall h, 0 < h < d -> Rabs (f (x + h) - f x) < eps.
Definition lcont (f : R -> R) (x : R) : Prop :=
  forall eps, 0 < eps -> exists d, 0 < d /\ forall h, 0 < h < d -> Rabs (f (x - h) - f x) < eps.

Lemma slope_small q m h eps : 0 < h -> h * (Rabs m + 1) < eps -> Rabs (q / h - m) < 1 -> Rabs q < eps.
Proof.
  intros Hh H1 H2. assert (E : q = h * (q / h - m) + h * m) by (field; lra). rewrite E.
  apply (Rle_lt_trans _ _ _ (Rabs_triang _ _)). rewrite !Rabs_mult, (Rabs_right h) by lra.
  pose proof (Rabs_pos m). nra.
Qed.
Lemma slope_rcont f x m : right_slope f x m -> rcont f x.
Proof.
  intros H eps He. destruct (H 1 Rlt_0_1) as [d [Hd D]]. pose proof (Rabs_pos m) as Hm.
  assert (Hq : 0 < eps / (Rabs m + 1)) by (apply Rdiv_lt_0_compat; lra).
  exists (Rmin d (eps / (Rabs m + 1))). split; [now apply Rmin_glb_lt|]. intros h Hh.
  pose proof (Rmin_l d (eps / (Rabs m + 1))). pose proof (Rmin_r d (eps / (Rabs m + 1))).
  apply (slope_small _ m h); [lra| |apply D; lra].
  assert (h < eps / (Rabs m + 1)) by lra. apply Rlt_div_r in H2; lra.
Qed.
Lemma slope_lcont f x m : left_slope f x m -> lcont f x.
Proof.
  intros H eps He. destruct (H 1 Rlt_0_1) as [d [Hd D]]. pose proof (Rabs_pos m) as Hm.
  assert (Hq : 0 < eps / (Rabs m + 1)) by (apply Rdiv_lt_0_compat; lra).
  exists (Rmin d (eps / (Rabs m + 1))). split; [now apply Rmin_glb_lt|]. intros h Hh.
  pose proof (Rmin_l d (eps / (Rabs m + 1))). pose proof (Rmin_r d (eps / (Rabs m + 1))).
  rewrite Rabs_minus_sym. apply (slope_small _ m h); [lra| |apply D; lra].
  assert (h < eps / (Rabs m + 1)) by lra. apply Rlt_div_r in H2; lra.
Qed.
Lemma rcont_minus f g x : rcont f x -> rcont g x -> rcont (fun t => f t - g t) x.
Proof.
  intros A B eps He. destruct (A (eps / 2) ltac:(lra)) as [d [Hd D]]. destruct (B (eps / 2) ltac:(lra)) as [d' [Hd' D']].
  exists (Rmin d d'). split; [now apply Rmin_glb_lt|]. intros h Hh. pose proof (Rmin_l d d'). pose proof (Rmin_r d d').
  specialize (D h ltac:(lra)). specialize (D' h ltac:(lra)). apply Rabs_def2 in D, D'. apply Rabs_def1; lra.
Qed.
Lemma lcont_minus f g x : lcont f x -> lcont g x -> lcont (fun t => f t - g t) x.
Proof.
  intros A B eps He. destruct (A (eps / 2) ltac:(lra)) as [d [Hd D]]. destruct (B (eps / 2) ltac:(lra)) as [d' [Hd' D']].
  exists (Rmin d d'). split; [now apply Rmin_glb_lt|]. intros h Hh. pose proof (Rmin_l d d'). pose proof (Rmin_r d d').
  specialize (D h ltac:(lra)). specialize (D' h ltac:(lra)). apply Rabs_def2 in D, D'. apply Rabs_def1; lra.
Qed.

Lemma flat_inside u a b x y : (forall x, a < x < b -> derivable_pt_lim u x 0) -> a < x < b -> a < y < b -> u x = u y.
Proof.
  intros H Hx Hy. destruct (Rtotal_order x y) as [L|[->|L]]; auto.
  - destruct (mvt u (fun _ => 0) x y L) as [c [_ E]]; [intros; apply H; lra|lra].
  - destruct (mvt u (fun _ => 0) y x L) as [c [_ E]]; [intros; apply H; lra|lra].
Qed.
Lemma flat u a b : a < b -> (forall x, a < x < b -> derivable_pt_lim u x 0) -> rcont u a -> lcont u b ->
  forall x, a <= x <= b -> u x = u a.
Proof.
  intros Hab H Ha Hb.
  assert (A : forall x, a < x < b -> u x = u a).
  { intros x Hx. destruct (Req_dec (u x) (u a)) as [E|E]; auto. exfalso.
    destruct (Ha (Rabs (u x - u a)) ltac:(apply Rabs_pos_lt; lra)) as [d [Hd D]].
    set (h := Rmin d (b - a) / 2). pose proof (Rmin_l d (b - a)). pose proof (Rmin_r d (b - a)). pose proof (Rmin_glb_lt d (b - a) 0 Hd ltac:(lra)).
    specialize (D h ltac:(unfold h; lra)). rewrite (flat_inside u a b (a + h) x) in D by (auto; unfold h; lra). lra. }
  intros x Hx. destruct (Req_dec x a) as [->|Na]; auto. destruct (Req_dec x b) as [->|Nb]; [|apply A; lra].
  destruct (Req_dec (u b) (u a)) as [E|E]; auto. exfalso.
  destruct (Hb (Rabs (u a - u b)) ltac:(apply Rabs_pos_lt; lra)) as [d [Hd D]].
  set (h := Rmin d (b - a) / 2). pose proof (Rmin_l d (b - a)). pose proof (Rmin_r d (b - a)). pose proof (Rmin_glb_lt d (b - a) 0 Hd ltac:(lra)).
  specialize (D h ltac:(unfold h; lra)). rewrite (A (b - h)) in D by (unfold h; lra). lra.
Qed.

Definition smooth (H H1 H2 : R -> R) : Prop :=
  (forall x, is_derive H x (H1 x)) /\ (forall x, is_derive H1 x (H2 x)) /\ (forall x, continuous H2 x).

Lemma derive_cont (f : R -> R) l x : is_derive f x l -> continuous f x.
Proof. intros H. apply (ex_derive_continuous f). now exists l. Qed.

Lemma ex_int (f : R -> R) a b : (forall x, continuous f x) -> ex_RInt f a b.
Proof. intros H. apply (ex_RInt_continuous (V := R_CompleteNormedModule)). auto. Qed.

Lemma primitive (f : R -> R) a : (forall x, continuous f x) -> forall x, is_derive (fun x => RInt f a x) x (f x).
Proof.
  intros H x. apply (is_derive_RInt f (fun x => RInt f a x) a x); auto.
  exists (mkposreal 1 Rlt_0_1). intros y _. apply (RInt_correct (V := R_CompleteNormedModule)). now apply ex_int.
Qed.

Lemma cont_of_pt (f : R -> R) x : continuity_pt f x <-> continuous f x.
Proof. unfold continuous. now rewrite continuity_pt_filterlim. Qed.

Lemma extend a b F F1 F2 : a < b -> twice_differentiable a b F F1 F2 ->
  exists H H1, smooth H H1 F2 /\ forall x, a <= x <= b -> H x = F x /\ H1 x = F1 x.
Proof.
  intros Hab (D & Ra & Ra1 & Lb & Lb1 & Cc).
  assert (C2 : forall x, continuous F2 x) by (intros; now apply cont_of_pt).
  set (H1 := fun x => F1 a + RInt F2 a x).
  assert (D1 : forall x, is_derive H1 x (F2 x)).
  { intros x. apply is_derive_Reals. replace (F2 x) with (0 + F2 x) by ring. apply (derivable_pt_lim_plus (fun _ => F1 a) (fun x => RInt F2 a x)); [apply derivable_pt_lim_const|].
    apply is_derive_Reals. now apply primitive. }
  assert (C1 : forall x, continuous H1 x) by (intros; eapply derive_cont; apply D1).
  set (H := fun x => F a + RInt H1 a x).
  assert (D0 : forall x, is_derive H x (H1 x)).
  { intros x. apply is_derive_Reals. replace (H1 x) with (0 + H1 x) by ring. apply (derivable_pt_lim_plus (fun _ => F a) (fun x => RInt H1 a x)); [apply derivable_pt_lim_const|].
    apply is_derive_Reals. now apply primitive. }
  assert (E1 : forall x, a <= x <= b -> H1 x = F1 x).
  { intros x Hx. assert (H1 a - F1 a = 0) by (unfold H1; rewrite RInt_point; unfold zero; cbn; ring).
    cut (H1 x - F1 x = H1 a - F1 a); [lra|].
    apply (flat (fun t => H1 t - F1 t) a b); auto.
    - intros t Ht. replace 0 with (F2 t - F2 t) by ring. apply dlim_minus; [apply is_derive_Reals; auto|apply D; auto].
    - apply rcont_minus; eapply slope_rcont; [apply derive_slopes, D1|eauto].
    - apply lcont_minus; eapply slope_lcont; [apply derive_slopes, D1|eauto]. }
  exists H, H1. split; [split; [|split]; auto|]. intros x Hx. split; auto.
  assert (H a - F a = 0) by (unfold H; rewrite RInt_point; unfold zero; cbn; ring).
  cut (H x - F x = H a - F a); [lra|].
  apply (flat (fun t => H t - F t) a b); auto.
  - intros t Ht. replace 0 with (H1 t - F1 t) by (rewrite E1 by lra; ring). apply dlim_minus; [apply is_derive_Reals; auto|apply D; auto].
  - apply rcont_minus; eapply slope_rcont; [apply derive_slopes, D0|eauto].
  - apply lcont_minus; eapply slope_lcont; [apply derive_slopes, D0|eauto].
Qed.

(** ** Orthogonality *)
Lemma cont_mult' (f g : R -> R) x : continuous f x -> continuous g x -> continuous (fun t => f t * g t) x.
Proof. apply (continuous_mult f g). Qed.
Lemma cont_minus' (f g : R -> R) x : continuous f x -> continuous g x -> continuous (fun t => f t - g t) x.
Proof. apply (continuous_minus f g). Qed.

Section Orth.
Variables (S2 E E1 E2 : R -> R) (x : Z -> R) (n : Z) (u v : Z -> R).
Hypothesis HE : smooth E E1 E2.
Hypothesis Hx : forall c, (0 <= c < n)%Z -> x c < x (c + 1)%Z.
Hypothesis affine : forall c t, (0 <= c < n)%Z -> x c <= t <= x (c + 1)%Z -> S2 t = u c + v c * t.
Hypothesis zero_E : forall c, (0 <= c <= n)%Z -> E (x c) = 0.

Lemma orth_cell c : (0 <= c < n)%Z -> is_RInt (fun t => S2 t * E2 t) (x c) (x (c + 1)%Z) (S2 (x (c + 1)%Z) * E1 (x (c + 1)%Z) - S2 (x c) * E1 (x c)).
Proof.
  intros Hc. pose proof (Hx c Hc) as L. destruct HE as (HE0 & HE1 & HE2).
  apply (is_RInt_ext (fun t => (u c + v c * t) * E2 t)).
  { rewrite Rmin_left, Rmax_right by lra. intros t Ht. rewrite (affine c) by (auto; lra). reflexivity. }
  set (P := fun t => (u c + v c * t) * E1 t - v c * E t).
  replace (S2 (x (c + 1)%Z) * E1 (x (c + 1)%Z) - S2 (x c) * E1 (x c)) with (minus (P (x (c + 1)%Z)) (P (x c))).
  2: { unfold P, minus, plus, opp; cbn. rewrite !zero_E by lia. rewrite !(affine c) by (auto; lra). ring. }
  apply (is_RInt_derive P (fun t => (u c + v c * t) * E2 t)).
  - intros t _. unfold P. apply is_derive_Reals.
    replace ((u c + v c * t) * E2 t) with ((v c * E1 t + (u c + v c * t) * E2 t) - v c * E1 t) by ring.
    apply dlim_minus.
    + apply (derivable_pt_lim_mult (fun t => u c + v c * t) E1); [|apply is_derive_Reals, HE1].
      apply is_derive_Reals. auto_derive; auto. ring.
    + apply (derivable_pt_lim_scal E). apply is_derive_Reals, HE0.
  - intros t _. apply cont_mult'; auto. eapply (derive_cont _ (v c)). auto_derive; auto. ring.
Qed.

Lemma orth_upto k : (0 <= k)%Z -> (k <= n)%Z -> is_RInt (fun t => S2 t * E2 t) (x 0%Z) (x k) (S2 (x k) * E1 (x k) - S2 (x 0%Z) * E1 (x 0%Z)).
Proof.
  revert k. apply (natlike_ind (fun k => (k <= n)%Z -> is_RInt (fun t => S2 t * E2 t) (x 0%Z) (x k) (S2 (x k) * E1 (x k) - S2 (x 0%Z) * E1 (x 0%Z)))).
  - intros _. replace (S2 (x 0%Z) * E1 (x 0%Z) - S2 (x 0%Z) * E1 (x 0%Z)) with (@zero R_NormedModule) by (unfold zero; cbn; ring). apply is_RInt_point.
  - intros k Hk IH Hk1. change (Z.succ k) with (k + 1)%Z in *.
    replace (S2 (x (k + 1)%Z) * E1 (x (k + 1)%Z) - S2 (x 0%Z) * E1 (x 0%Z)) with
      (plus (S2 (x k) * E1 (x k) - S2 (x 0%Z) * E1 (x 0%Z)) (S2 (x (k + 1)%Z) * E1 (x (k + 1)%Z) - S2 (x k) * E1 (x k))) by (unfold plus; cbn; ring).
    apply (is_RInt_Chasles (V := R_NormedModule)) with (x k); [apply IH; lia|]. apply orth_cell. lia.
Qed.
End Orth.

Lemma positive_square (f : R -> R) a b : a < b -> (forall x, continuous f x) -> RInt (fun t => f t * f t) a b = 0 -> forall x, a <= x <= b -> f x = 0.
Proof.
  intros Hab C H. set (q := fun t => f t * f t) in *.
  assert (Cq : forall x, continuous q x) by (intros; apply cont_mult'; auto).
  assert (Q0 : forall x y, x <= y -> 0 <= RInt q x y).
  { intros x y L. apply RInt_ge_0; auto using ex_int. intros; unfold q; nra. }
  assert (In : forall x, a < x < b -> f x = 0).
  { intros x Hx. destruct (Req_dec (f x) 0) as [E|E]; auto. exfalso.
    assert (Cx : continuity_pt f x) by now apply cont_of_pt.
    destruct (Cx (Rabs (f x)) ltac:(now apply Rabs_pos_lt)) as [d [Hd D]].
    set (e := Rmin d (b - x) / 2). pose proof (Rmin_l d (b - x)). pose proof (Rmin_r d (b - x)). pose proof (Rmin_glb_lt d (b - x) 0 Hd ltac:(lra)).
    assert (P : 0 < RInt q x (x + e)).
    { apply RInt_gt_0; auto; [unfold e; lra|]. intros t Ht. unfold q.
      assert (T : Rabs (f t - f x) < Rabs (f x)).
      { apply D. split; [split; [exact I|unfold e in *; lra]|]. cbn. unfold R_dist. rewrite Rabs_right; unfold e in *; lra. }
      assert (f t <> 0). { intros Z0. rewrite Z0, Rminus_0_l, Rabs_Ropp in T. lra. }
      nra. }
    pose proof (RInt_Chasles q a x b (ex_int q a x Cq) (ex_int q x b Cq)) as X1.
    pose proof (RInt_Chasles q x (x + e) b (ex_int q x (x + e) Cq) (ex_int q (x + e) b Cq)) as X2.
    change (RInt q a x + RInt q x b = RInt q a b) in X1. change (RInt q x (x + e) + RInt q (x + e) b = RInt q x b) in X2.
    pose proof (Q0 a x ltac:(lra)). pose proof (Q0 (x + e) b ltac:(unfold e; lra)). lra. }
  intros x Hx. destruct (Req_dec (f x) 0) as [E|E]; auto. exfalso.
  assert (Cx : continuity_pt f x) by now apply cont_of_pt.
  destruct (Cx (Rabs (f x)) ltac:(now apply Rabs_pos_lt)) as [d [Hd D]].
  set (m := (a + b) / 2).
  assert (exists t, a < t < b /\ t <> x /\ Rabs (t - x) < d) as [t (Ht & Nt & Dt)].
  { pose proof (Rmin_l d ((b - a) / 2)). pose proof (Rmin_r d ((b - a) / 2)). pose proof (Rmin_glb_lt d ((b - a) / 2) 0 Hd ltac:(lra)).
    destruct (Rle_dec x m); unfold m in *.
    - exists (x + Rmin d ((b - a) / 2) / 2). rewrite Rabs_right; lra.
    - exists (x - Rmin d ((b - a) / 2) / 2). rewrite Rabs_left; lra. }
  assert (T : Rabs (f t - f x) < Rabs (f x)) by (apply D; split; [split; [exact I|lra]|exact Dt]).
  rewrite (In t Ht), Rminus_0_l, Rabs_Ropp in T. lra.
Qed.

(** ** The natural spline *)
Theorem least_curvature mode a b n (V C : arr R) F F1 F2 G G1 G2 :
  let g := Unif a b n in
  valid_dim g -> ashape V = [n] -> filter_cubic [g] V None = Ok (VArr C, None) ->
  (forall t, a <= t <= b -> value_cubic mode [g] [] C [t] [] (F t)) ->
  twice_differentiable a b F F1 F2 -> twice_differentiable a b G G1 G2 ->
  (forall i, (0 <= i < n)%Z -> G (gnode g i) = acell V [i]) ->
  RInt (fun t => G2 t * G2 t) a b = RInt (fun t => F2 t * F2 t) a b + RInt (fun t => (G2 t - F2 t) * (G2 t - F2 t)) a b /\
  RInt (fun t => F2 t * F2 t) a b <= RInt (fun t => G2 t * G2 t) a b /\
  (RInt (fun t => F2 t * F2 t) a b = RInt (fun t => G2 t * G2 t) a b -> forall t, a <= t <= b -> G t = F t).
Proof.
  intros g Hg HV HC HF TF TG HN. assert (Hab : a < b) by apply Hg. assert (Hn : (2 <= n)%Z) by apply Hg.
  set (h := (b - a) / (IZR n - 1)). assert (Hh : 0 < h) by exact (unif_step a b n Hg).
  destruct (filter_1d_unique a b n V Hg HV) as [C1 (E1 & S1' & U)]. fold g in E1. rewrite HC in E1. inversion E1; subst C1.
  set (W := fun i => acell C [i]).
  assert (N : natural_coefs n (fun i => acell V [i]) W) by (apply U; auto).
  assert (Hvg : valid_grid [g]) by (constructor; auto).
  assert (HU : all_uniform [g]) by (constructor; auto).
  assert (HCo : coefs_ok 3 [g] [] C).
  { split; [|now left]. cbn. rewrite S1'. unfold csize. cbn. f_equal. lia. }
  pose proof (slice_cub mode [] a b n [] [] C [] [] [] F) as EF. cbn zeta in EF. cbn [app] in EF.
  specialize (EF Hvg HU HCo eq_refl (Forall2_nil _) (Forall2_nil _) HF).
  assert (EW : forall t, a <= t <= b -> F t = cubG a b n W bsp t).
  { intros t Ht. rewrite EF by auto. reflexivity. }
  set (S := cubG a b n W bsp). set (S1 := fun x => / h * cubG a b n W dbsp x). set (S2 := fun x => / h * (/ h * cubG a b n W ddbsp x)).
  assert (SS : smooth S S1 S2).
  { split; [|split]; intros x.
    - apply (cubG_derive a b n W Hg); auto using joins_bsp, joins_dbsp, bsp_derive.
    - apply is_derive_scal. apply (cubG_derive a b n W Hg); auto using joins_ddbsp, joins_dbsp, dbsp_derive.
    - apply cont_of_pt. apply continuity_pt_scal, continuity_pt_scal. now apply cubG_continuous. }
  destruct (extend a b F F1 F2 Hab TF) as (A0 & A1 & SA & EA). destruct (extend a b G G1 G2 Hab TG) as (B0 & B1 & SB & EB).
  (* F2 = S2 on [a, b] *)
  assert (ES1 : forall t, a < t < b -> F1 t = S1 t).
  { intros t Ht. destruct TF as (D & _). destruct (D t Ht) as [D1 _]. apply (uniqueness_limite F t); auto.
    apply is_derive_Reals. apply (derive_local F S t (S1 t) (Rmin (t - a) (b - t))).
    - apply Rmin_glb_lt; lra.
    - intros s Hs. apply EW. pose proof (Rmin_l (t - a) (b - t)). pose proof (Rmin_r (t - a) (b - t)). lra.
    - apply SS. }
  assert (ES2 : forall t, a < t < b -> F2 t = S2 t).
  { intros t Ht. destruct TF as (D & _). destruct (D t Ht) as [_ D2]. apply (uniqueness_limite F1 t); auto.
    apply is_derive_Reals. apply (derive_local F1 S1 t (S2 t) (Rmin (t - a) (b - t))).
    - apply Rmin_glb_lt; lra.
    - intros s Hs. apply ES1. pose proof (Rmin_l (t - a) (b - t)). pose proof (Rmin_r (t - a) (b - t)). lra.
    - apply SS. }
  assert (Rab : forall (p q : R -> R), (forall t, a < t < b -> p t = q t) -> RInt p a b = RInt q a b).
  { intros p q Hpq. apply RInt_ext. rewrite Rmin_left, Rmax_right by lra. auto. }
  assert (CF : forall x, continuous S2 x) by apply SS. assert (CG : forall x, continuous G2 x) by apply SB.
  set (E := fun t => B0 t - S t). set (E1' := fun t => B1 t - S1 t). set (E2 := fun t => G2 t - S2 t).
  assert (SE : smooth E E1' E2).
  { destruct SB as (b0 & b1 & b2). destruct SS as (s0 & s1 & s2). split; [|split]; intros x.
    - apply is_derive_Reals, dlim_minus; apply is_derive_Reals; auto.
    - apply is_derive_Reals, dlim_minus; apply is_derive_Reals; auto.
    - apply cont_minus'; auto. }
  assert (Hnode : forall c, (0 <= c <= n - 1)%Z -> E (gnode g c) = 0).
  { intros c Hc. pose proof (gnode_in_dim g c Hg ltac:(cbn; lia)) as D. assert (D' : a <= gnode g c <= b) by (unfold in_dim, g in D; rewrite glo_unif, ghi_unif in D by auto; exact D).
    unfold E. rewrite (proj1 (EB _ D')). rewrite HN by lia.
    unfold S. rewrite <- wsum_cub by auto.
    unfold wsum. rewrite phi3_node_sum by (auto; cbn; lia). destruct N as [N _]. rewrite N by lia. ring. }
  assert (Ea : gnode g 0 = a) by (apply glo_unif). assert (Eb : gnode g (n - 1) = b) by (apply (ghi_unif a b n); auto).
  assert (Z0 : S2 a = 0).
  { pose proof (cub_node a b n W Hg ddbsp 0 joins_ddbsp ltac:(cbn; lia)) as K. fold g in K. rewrite Ea in K. destruct N as (_ & N & _).
    unfold S2. rewrite K. cbn. cbn in N.
    replace ((1 - 0) * W 0%Z + (3 * 0 - 2) * W 1%Z + (-3 * 0 + 1) * W 2%Z) with (W 0%Z - 2 * W 1%Z + W 2%Z) by ring. rewrite N. ring. }
  assert (Z1 : S2 b = 0).
  { pose proof (cub_last a b n W Hg ddbsp joins_ddbsp) as K. cbn [gsize] in K. fold g in K. rewrite Eb in K. destruct N as (_ & _ & N).
    unfold S2. rewrite K. cbn. cbn in N.
    replace ((3 * 1 - 2) * W (n - 1)%Z + (-3 * 1 + 1) * W n + 1 * W (n + 1)%Z) with (W (n - 1)%Z - 2 * W n + W (n + 1)%Z) by ring. rewrite N. ring. }
  assert (O : is_RInt (fun t => S2 t * E2 t) a b 0).
  { assert (SO : exists u v : Z -> R, forall c t, (0 <= c < n - 1)%Z -> gnode g c <= t <= gnode g (c + 1) -> S2 t = u c + v c * t).
    { exists (fun c => / h * (/ h * (curv W c - gnode g c * / h * (curv W (c + 1) - curv W c)))), (fun c => / h * (/ h * (/ h * (curv W (c + 1) - curv W c)))).
      intros c t Hc Ht. unfold S2.
      rewrite (glue_any g (cubG a b n W ddbsp) (cub a b n W ddbsp) Hg) with (c := c).
      - rewrite cub_curv. assert (LH : lamC (Unif a b n) c t = (t - gnode g c) * / h) by exact (lamC_h a b n Hg c t). rewrite LH. ring.
      - reflexivity.
      - intros; apply cub_match; auto. apply joins_ddbsp.
      - apply cell_adm; auto. cbn. lia. }
    destruct SO as (u & v & SO).
    pose proof (orth_upto S2 E E1' E2 (fun c => gnode g c) (n - 1) u v SE) as O.
    specialize (O (fun c Hc => gnode_step g c Hg ltac:(cbn; lia)) SO Hnode (n - 1)%Z ltac:(lia) ltac:(lia)).
    cbn beta in O. rewrite Ea, Eb, Z0, Z1 in O. replace 0 with (0 * E1' b - 0 * E1' a) by ring. exact O. }
  assert (EQ : RInt (fun t => G2 t * G2 t) a b = RInt (fun t => S2 t * S2 t) a b + RInt (fun t => E2 t * E2 t) a b).
  { assert (CE : forall x, continuous E2 x) by apply SE.
    assert (I1 : is_RInt (fun t => S2 t * S2 t) a b (RInt (fun t => S2 t * S2 t) a b)).
    { apply (RInt_correct (V := R_CompleteNormedModule)), ex_int. intros; now apply cont_mult'. }
    assert (I2 : is_RInt (fun t => E2 t * E2 t) a b (RInt (fun t => E2 t * E2 t) a b)).
    { apply (RInt_correct (V := R_CompleteNormedModule)), ex_int. intros; now apply cont_mult'. }
    pose proof (is_RInt_plus _ _ a b _ _ (is_RInt_plus _ _ a b _ _ I1 (is_RInt_scal _ a b 2 _ O)) I2) as I3.
    apply is_RInt_unique.
    match type of I3 with is_RInt _ _ _ ?v => replace (RInt (fun t => S2 t * S2 t) a b + RInt (fun t => E2 t * E2 t) a b) with v by (unfold plus, scal; cbn; unfold mult; cbn; ring) end.
    eapply is_RInt_ext; [|exact I3]. intros t _. unfold E2, plus, scal; cbn. unfold mult; cbn. ring. }
  assert (CE : forall x, continuous E2 x) by apply SE.
  assert (P : 0 <= RInt (fun t => E2 t * E2 t) a b).
  { apply RInt_ge_0; [lra|apply ex_int; intros; now apply cont_mult'|]. intros; nra. }
  rewrite (Rab (fun t => F2 t * F2 t) (fun t => S2 t * S2 t)) by (intros t Ht; rewrite ES2 by auto; reflexivity).
  rewrite (Rab (fun t => (G2 t - F2 t) * (G2 t - F2 t)) (fun t => E2 t * E2 t)) by (intros t Ht; unfold E2; rewrite ES2 by auto; reflexivity).
  split; [exact EQ|]. split; [lra|].
  intros HQ t Ht.
  assert (ZE : forall x, a <= x <= b -> E2 x = 0) by (apply positive_square; auto; lra).
  destruct SE as (e0 & e1 & e2).
  assert (C1' : forall x, a <= x <= b -> E1' x = E1' a).
  { apply flat; auto.
    - intros x Hx. rewrite <- (ZE x) by lra. apply is_derive_Reals, e1.
    - eapply slope_rcont. apply derive_slopes, e1.
    - eapply slope_lcont. apply derive_slopes, e1. }
  assert (K : E1' a = 0).
  { destruct (mvt E E1' a b Hab) as [c [Hc Ec]]; [intros; apply is_derive_Reals, e0|].
    assert (Ha : E a = 0) by (rewrite <- Ea; apply Hnode; lia). assert (Hb : E b = 0) by (rewrite <- Eb; apply Hnode; lia).
    rewrite Ha, Hb, (C1' c) in Ec by lra. assert (Q : E1' a * (b - a) = 0) by lra. destruct (Rmult_integral _ _ Q); lra. }
  assert (Et : E t = E a).
  { apply (flat E a b Hab); auto.
    - intros x Hx. rewrite <- K, <- (C1' x) by lra. apply is_derive_Reals, e0.
    - eapply slope_rcont. apply derive_slopes, e0.
    - eapply slope_lcont. apply derive_slopes, e0. }
  assert (Ha : E a = 0) by (rewrite <- Ea; apply Hnode; lia).
  rewrite EW by auto. rewrite <- (proj1 (EB t Ht)). unfold E, S in *. lra.
Qed.
