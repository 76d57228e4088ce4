(** Rounded weights (C72). *)
From Coq Require Import ZArith List Bool Reals Lia Lra Psatz ZifyBool.
From Coquelicot Require Import Coquelicot.
From Flocq Require Import Core.Raux.
From Verif Require Import Base BaseFacts SplineModel Spec SpecRound EvalGeneric EvalR WeightsR RSum EvalRProps RoundR.
Import ListNotations.
Open Scope R_scope.

Section Rounded.
Variable N : Num R.
Variable u : R.
Hypothesis HN : rounded N u.
Hypothesis Hu : u <= / 200.
Notation "x ⊕ y" := (@n_add R N x y) (at level 50, left associativity).
Notation "x ⊖ y" := (@n_sub R N x y) (at level 50, left associativity).
Notation "x ⊗ y" := (@n_mul R N x y) (at level 40, left associativity).
Notation "x ⊘ y" := (@n_div R N x y) (at level 40, left associativity).

Lemma u_pos : 0 <= u.
Proof. destruct (r_add N u HN 0 0) as (e & H & _). pose proof (Rabs_pos e). lra. Qed.

Lemma ofZ_small z : (Z.abs z <= 200)%Z -> @n_ofZ R N z = IZR z.
Proof.
  intros H. apply (r_int N u HN). rewrite <- abs_IZR. apply IZR_le in H. pose proof u_pos.
  assert (IZR (Z.abs z) * u <= 200 * / 200); [|lra]. apply Rmult_le_compat; try lra. rewrite abs_IZR. apply Rabs_pos.
Qed.
Lemma ltb_R x y : @n_ltb R N x y = Rlt_bool x y.
Proof.
  pose proof (r_ltb N u HN x y). destruct (Rlt_bool_spec x y) as [L|L]; [now apply H|].
  destruct (n_ltb x y); auto. destruct H as [H _]. specialize (H eq_refl). lra.
Qed.
Lemma is0_R x : x <> 0 -> @n_is0 R N x = false.
Proof. intros H. pose proof (r_is0 N u HN x). destruct (n_is0 x); auto. tauto. Qed.

(** ** Approximations *)
Definition ap (z x B c : R) : Prop := Rabs x <= B /\ Rabs (z - x) <= c * u.
Lemma ap_nonneg z x B c : ap z x B c -> 0 <= B.
Proof. intros [H _]. pose proof (Rabs_pos x). lra. Qed.
Lemma ap_exact x B : Rabs x <= B -> ap x x B 0.
Proof. intros H. split; auto. unfold Rminus. rewrite Rplus_opp_r, Rabs_R0. lra. Qed.
Lemma ap_weaken z x B c B' c' : ap z x B c -> B <= B' -> c <= c' -> ap z x B' c'.
Proof. intros [H1 H2] HB Hc. pose proof u_pos. split; [lra|]. nra. Qed.

(** Rounding a value [y] near [x] *)
Lemma ap_round y x B c e : 0 <= c -> Rabs e <= u -> Rabs x <= B -> Rabs (y - x) <= c * u -> ap (y * (1 + e)) x B (c * 1.005 + B).
Proof.
  intros Hc He HB H. pose proof u_pos. split; auto.
  replace (y * (1 + e) - x) with ((y - x) * (1 + e) + x * e) by ring.
  eapply Rle_trans; [apply Rabs_triang|]. rewrite !Rabs_mult.
  assert (Rabs (1 + e) <= 1.005). { apply Rabs_le_between in He. apply Rabs_le. lra. }
  assert (Rabs (y - x) * Rabs (1 + e) <= c * u * 1.005) by (apply Rmult_le_compat; auto using Rabs_pos).
  assert (Rabs x * Rabs e <= B * u) by (apply Rmult_le_compat; auto using Rabs_pos). lra.
Qed.
Lemma ap_add z x B c z' x' B' c' : 0 <= c -> 0 <= c' -> ap z x B c -> ap z' x' B' c' -> ap (z ⊕ z') (x + x') (B + B') ((c + c') * 1.005 + (B + B')).
Proof.
  intros P P' [H1 H2] [H3 H4]. destruct (r_add N u HN z z') as (e & He & ->). apply ap_round; auto; try lra.
  - pose proof (Rabs_triang x x'). lra.
  - replace (z + z' - (x + x')) with ((z - x) + (z' - x')) by ring. pose proof (Rabs_triang (z - x) (z' - x')). lra.
Qed.
Lemma ap_sub z x B c z' x' B' c' : 0 <= c -> 0 <= c' -> ap z x B c -> ap z' x' B' c' -> ap (z ⊖ z') (x - x') (B + B') ((c + c') * 1.005 + (B + B')).
Proof.
  intros P P' [H1 H2] [H3 H4]. destruct (r_sub N u HN z z') as (e & He & ->). apply ap_round; auto; try lra.
  - pose proof (Rabs_triang x (- x')). rewrite Rabs_Ropp in *. unfold Rminus. lra.
  - replace (z - z' - (x - x')) with ((z - x) + - (z' - x')) by ring. pose proof (Rabs_triang (z - x) (- (z' - x'))). rewrite Rabs_Ropp in *. lra.
Qed.
Lemma ap_mul z x B c z' x' B' c' : 0 <= c -> 0 <= c' -> ap z x B c -> ap z' x' B' c' ->
  ap (z ⊗ z') (x * x') (B * B') ((c * B' + c' * B + c * c' * 0.005) * 1.005 + B * B').
Proof.
  intros P P' [H1 H2] [H3 H4]. pose proof u_pos. destruct (r_mul N u HN z z') as (e & He & ->).
  assert (0 <= B) by (pose proof (Rabs_pos x); lra). assert (0 <= B') by (pose proof (Rabs_pos x'); lra).
  assert (0 <= c * B') by nra. assert (0 <= c' * B) by nra. assert (0 <= c * c') by nra.
  apply ap_round; auto; try lra.
  - rewrite Rabs_mult. apply Rmult_le_compat; auto using Rabs_pos.
  - replace (z * z' - x * x') with ((z - x) * x' + (z' - x') * x + (z - x) * (z' - x')) by ring.
    eapply Rle_trans; [apply Rabs_triang|]. pose proof (Rabs_triang ((z - x) * x') ((z' - x') * x)) as T. rewrite !Rabs_mult in *.
    assert (Rabs (z - x) * Rabs x' <= c * u * B') by (apply Rmult_le_compat; auto using Rabs_pos).
    assert (Rabs (z' - x') * Rabs x <= c' * u * B) by (apply Rmult_le_compat; auto using Rabs_pos).
    assert (Rabs (z - x) * Rabs (z' - x') <= c * u * (c' * u)) by (apply Rmult_le_compat; auto using Rabs_pos).
    assert (c * u * (c' * u) <= c * c' * 0.005 * u).
    { replace (c * u * (c' * u)) with (c * c' * u * u) by ring. assert (c * c' * u * u <= c * c' * u * 0.005) by (apply Rmult_le_compat_l; [nra|lra]). lra. }
    lra.
Qed.
Lemma ap_div x y B : y <> 0 -> Rabs (x / y) <= B -> ap (x ⊘ y) (x / y) B B.
Proof.
  intros Hy HB. destruct (r_div N u HN x y Hy) as (e & He & ->).
  pose proof (ap_round (x / y) (x / y) B 0 e (Rle_refl _) He HB) as X. eapply ap_weaken; [apply X| |]; try lra.
  unfold Rminus. rewrite Rplus_opp_r, Rabs_R0. lra.
Qed.

(** ** Blending weights *)
Lemma frac6_ap z : (Z.abs z <= 6)%Z -> ap (@frac6 R N z) (@frac6 R NumR z) 1 1.
Proof.
  intros H. unfold frac6. rewrite !ofZ_small by lia. apply ap_div; [cbn; lra|]. cbn.
  unfold Rdiv. rewrite Rabs_mult, (Rabs_right (/ 6)) by lra. rewrite <- abs_IZR. apply IZR_le in H. lra.
Qed.
Lemma Cd_ap j m : (0 <= j <= 3)%Z -> (0 <= m <= 3)%Z -> ap (@Cd R N j m) (@Cd R NumR j m) 1 1.
Proof.
  intros Hj Hm. case4 j Hj; case4 m Hm; cbn [Cd]; apply frac6_ap; lia.
Qed.

Lemma blend_cubic_ap j lam : (0 <= j <= 3)%Z -> 0 <= lam <= 1.1 ->
  Rabs (@blend_cubic_j R N lam (lam ⊗ lam ⊗ lam) (lam ⊗ lam) lam (@n_ofZ R N 1) j
        - @blend_cubic_j R NumR lam (lam * lam * lam) (lam * lam) lam 1 j) <= 40 * u.
Proof.
  intros Hj Hl. unfold blend_cubic_j. rewrite !ltb_R, !ofZ_small by lia.
  change (@n_ltb R NumR) with Rlt_bool. change (@n_ofZ R NumR) with IZR.
  pose proof u_pos.
  assert (C : forall m, (0 <= m <= 3)%Z -> ap (@Cd R N j m) (@Cd R NumR j m) 1 1) by (intros; apply Cd_ap; auto).
  assert (L : ap lam lam 1.1 0) by (apply ap_exact; rewrite Rabs_right; lra).
  assert (O : forall z, (Z.abs z <= 3)%Z -> ap (IZR z) (IZR z) 3 0). { intros z Hz. apply ap_exact. rewrite <- abs_IZR. now apply IZR_le. }
  destruct (Rlt_bool_spec lam 0) as [X|X]; [lra|].
  destruct (Rlt_bool_spec 1 lam) as [X1|X1].
  - assert (A1 : ap (IZR 3 ⊗ @Cd R N j 0 ⊕ IZR 2 ⊗ @Cd R N j 1 ⊕ @Cd R N j 2) (3 * @Cd R NumR j 0 + 2 * @Cd R NumR j 1 + @Cd R NumR j 2) 10 60).
    { eapply ap_weaken.
      { eapply ap_add; [| |eapply ap_add; [| |eapply ap_mul; [| |apply (O 3%Z); lia|apply C; lia]|eapply ap_mul; [| |apply (O 2%Z); lia|apply C; lia]]|apply C; lia]; lra. }
      all: lra. }
    assert (A2 : ap (lam ⊖ 1) (lam - 1) 0.1 0.1).
    { destruct (r_sub N u HN lam 1) as (e & He & ->). eapply ap_weaken; [apply (ap_round _ (lam - 1) 0.1 0); auto; try lra| |]; try lra.
      - rewrite Rabs_right; lra.
      - unfold Rminus at 1. rewrite Rplus_opp_r, Rabs_R0. lra. }
    assert (A3 : ap (@Cd R N j 0 ⊕ @Cd R N j 1 ⊕ @Cd R N j 2 ⊕ @Cd R N j 3) (@Cd R NumR j 0 + @Cd R NumR j 1 + @Cd R NumR j 2 + @Cd R NumR j 3) 4 14).
    { eapply ap_weaken.
      { eapply ap_add; [| |eapply ap_add; [| |eapply ap_add; [| |apply C; lia|apply C; lia]|apply C; lia]|apply C; lia]; lra. }
      all: lra. }
    assert (A4 : ap 1 1 1 0) by (apply ap_exact; rewrite Rabs_R1; lra).
    match goal with |- Rabs (?z - ?x) <= _ => cut (ap z x 5 40); [intros [_ W]; exact W|] end. eapply ap_weaken.
    { eapply ap_add; [| |eapply ap_mul; [| |exact A1|exact A2]|eapply ap_mul; [| |exact A3|exact A4]]; lra. }
    lra. lra.
  - assert (A4 : ap 1 1 1 0) by (apply ap_exact; rewrite Rabs_R1; lra).
    assert (M1 : ap (lam ⊗ lam) (lam * lam) 1.21 1.21) by (eapply ap_weaken; [eapply ap_mul; [| |exact L|exact L]; lra|lra|lra]).
    assert (M0 : ap (lam ⊗ lam ⊗ lam) (lam * lam * lam) 1.331 2.7) by (eapply ap_weaken; [eapply ap_mul; [| |exact M1|exact L]; lra|lra|lra]).
    match goal with |- Rabs (?z - ?x) <= _ => cut (ap z x 5 40); [intros [_ W]; exact W|] end. eapply ap_weaken.
    { eapply ap_add; [| |eapply ap_add; [| |eapply ap_add; [| |eapply ap_mul; [| |apply (C 0%Z); lia|exact M0]|eapply ap_mul; [| |apply (C 1%Z); lia|exact M1]]
        |eapply ap_mul; [| |apply (C 2%Z); lia|exact L]]|eapply ap_mul; [| |apply (C 3%Z); lia|exact A4]]; lra. }
    all: lra.
Qed.

(** ** Relative errors *)
Definition rel (c x y : R) : Prop := exists e, Rabs e <= c * u /\ x = y * (1 + e).
Lemma rel_1 x y e : Rabs e <= u -> x = y * (1 + e) -> rel 1 x y.
Proof. intros H E. exists e. split; [lra|auto]. Qed.
Lemma rel_mul c x y c' x' y' : 0 <= c -> 0 <= c' -> rel c x y -> rel c' x' y' -> rel (c + c' + c * c' * 0.005) (x * x') (y * y').
Proof.
  intros P P' (e & H & ->) (e' & H' & ->). pose proof u_pos. exists (e + e' + e * e'). split; [|ring].
  eapply Rle_trans; [apply Rabs_triang|]. pose proof (Rabs_triang e e'). rewrite Rabs_mult.
  assert (Rabs e * Rabs e' <= c * u * (c' * u)) by (apply Rmult_le_compat; auto using Rabs_pos).
  assert (c * u * (c' * u) <= c * c' * 0.005 * u).
  { replace (c * u * (c' * u)) with (c * c' * u * u) by ring. assert (0 <= c * c') by nra.
    assert (c * c' * u * u <= c * c' * u * 0.005) by (apply Rmult_le_compat_l; [nra|lra]). lra. }
  lra.
Qed.
Lemma rel_div c x y x' y' : 0 <= c -> y' <> 0 -> rel c x y -> rel 1 x' y' -> rel ((c + 1) * 1.0051) (x / x') (y / y') /\ x' <> 0.
Proof.
  intros P Hy (e & H & ->) (e' & H' & ->). pose proof u_pos. apply Rabs_le_between in H'.
  assert (Q : 0.995 <= 1 + e') by lra. split.
  - exists ((e - e') / (1 + e')). split; [|field; split; lra].
    unfold Rdiv. rewrite Rabs_mult, (Rabs_right (/ (1 + e'))) by (apply Rle_ge, Rlt_le, Rinv_0_lt_compat; lra).
    assert (Rabs (e - e') <= (c + 1) * u).
    { pose proof (Rabs_triang e (- e')) as T. rewrite Rabs_Ropp in T. assert (Rabs e' <= u) by (apply Rabs_le; lra). unfold Rminus. lra. }
    assert (/ (1 + e') <= 1.0051).
    { apply Rmult_le_reg_r with (1 + e'); [lra|]. rewrite Rinv_l by lra. lra. }
    assert (0 <= / (1 + e')) by (apply Rlt_le, Rinv_0_lt_compat; lra).
    replace ((c + 1) * 1.0051 * u) with ((c + 1) * u * 1.0051) by ring. apply Rmult_le_compat; auto using Rabs_pos.
  - apply Rmult_integral_contrapositive. split; lra.
Qed.
Lemma rel_weaken c c' x y : rel c x y -> c <= c' -> rel c' x y.
Proof. intros (e & H & E) L. exists e. split; auto. pose proof u_pos. nra. Qed.
Lemma rel_abs c x y : rel c x y -> Rabs (x - y) <= c * u * Rabs y.
Proof.
  intros (e & H & ->). replace (y * (1 + e) - y) with (e * y) by ring. rewrite Rabs_mult. apply Rmult_le_compat_r; auto using Rabs_pos.
Qed.
Lemma rel_add1 x y : rel 1 (x ⊕ y) (x + y).
Proof. destruct (r_add N u HN x y) as (e & H & E). eapply rel_1; eauto. Qed.
Lemma rel_sub1 x y : rel 1 (x ⊖ y) (x - y).
Proof. destruct (r_sub N u HN x y) as (e & H & E). eapply rel_1; eauto. Qed.
Lemma rel_mul1 x y : rel 1 (x ⊗ y) (x * y).
Proof. destruct (r_mul N u HN x y) as (e & H & E). eapply rel_1; eauto. Qed.
Lemma rel_div1 x y : y <> 0 -> rel 1 (x ⊘ y) (x / y).
Proof. intros Hy. destruct (r_div N u HN x y Hy) as (e & H & E). eapply rel_1; eauto. Qed.
Lemma rel_trans c c' x y z : 0 <= c -> 0 <= c' -> rel c x y -> rel c' y z -> rel (c + c' + c * c' * 0.005) x z.
Proof.
  intros P P' (e & H & ->) (e' & H' & ->).
  destruct (rel_mul c (1 * (1 + e)) 1 c' (z * (1 + e')) z P P') as (e2 & H2 & E2).
  - exists e. auto. - exists e'. auto.
  - exists e2. split; auto. rewrite <- (Rmult_1_l z), <- E2. ring.
Qed.

(** ** The weights of one dimension *)
Definition Bk (k : Z) : R := if (k =? 1)%Z then 1.1 else 40.
Lemma blend_close k lam del : (k = 1 \/ k = 3)%Z -> 0 <= lam <= 1.1 ->
  exists ws, @blend R N k 0 lam del = Ok ws /\ zlen ws = (k + 1)%Z /\ forall j, (0 <= j <= k)%Z -> Rabs (nth (Z.to_nat j) ws 0 - wt k j lam) <= Bk k * u.
Proof.
  intros [-> | ->] Hl; eexists; split; try reflexivity; split; try reflexivity; intros j Hj.
  - unfold wt, Bk. cbn [Z.eqb Pos.eqb]. pose proof u_pos. assert (j = 0 \/ j = 1)%Z as [-> | ->] by lia; cbn.
    + rewrite ofZ_small by lia. destruct (r_sub N u HN 1 lam) as (e & H0 & ->).
      replace ((1 - lam) * (1 + e) - (1 - lam)) with ((1 - lam) * e) by ring. rewrite Rabs_mult.
      apply Rmult_le_compat; auto using Rabs_pos. apply Rabs_le. lra.
    + unfold Rminus. rewrite Rplus_opp_r, Rabs_R0. lra.
  - unfold wt, Bk. cbn [Z.eqb Pos.eqb]. rewrite <- (wR_3_0 lam 1) by lia. unfold wR. 
    pose proof (blend_cubic_ap j lam Hj Hl) as X. case4 j Hj; exact X.
Qed.

(** What is needed of a bracket [br] for the point [x] of the dimension [g]: the weights computed from it
    act as the exact ones, up to [e]. *)
Definition close (k : Z) (g : gdim R) (x : R) (br : Z * R * R) (e : R) : Prop :=
  let '(c, lam, del) := br in
  (0 <= c <= gsize g - 2)%Z /\
  exists ws, @blend R N k 0 lam del = Ok ws /\ zlen ws = (k + 1)%Z /\
    forall f M, (forall i, (0 <= i < csize k g)%Z -> Rabs (f i) <= M) ->
      Rabs (zsum (k + 1) (fun j => nth (Z.to_nat j) ws 0 * f (c + j)%Z) - wsum k 0 g f x) <= e * M.

(** From a cell [c] and a coordinate [lam] computed up to [d], the exact one being that of a point [y]
    not far from [x]. *)
Lemma close_intro k g x y c lam del d e : (k = 1 \/ k = 3)%Z -> valid_dim g -> admissible g c y -> 0 <= lam <= 1.1 ->
  Rabs (lam - lamC g c y) <= d ->
  (forall f M, (forall i, (0 <= i < csize k g)%Z -> Rabs (f i) <= M) -> Rabs (wsum k 0 g f y - wsum k 0 g f x) <= e * M) ->
  close k g x (c, lam, del) (IZR (k + 1) * (Bk k * u + d) + e).
Proof.
  intros Hk Hg Ha Hl Hd HL. pose proof (proj1 Ha) as Hc. pose proof u_pos.
  destruct (blend_close k lam del Hk Hl) as (ws & E & L & W). split; [auto|]. exists ws. split; [auto|]. split; [auto|].
  intros f M Hf. specialize (HL f M Hf).
  assert (Hfc : forall j, (0 <= j <= k)%Z -> Rabs (f (c + j)%Z) <= M) by (intros j Hj; apply Hf; unfold csize; lia).
  assert (0 <= M) by (specialize (Hfc 0%Z ltac:(lia)); pose proof (Rabs_pos (f (c + 0)%Z)); lra).
  assert (0 <= Bk k) by (unfold Bk; destruct (k =? 1)%Z; lra).
  pose proof (sum_close k (fun j => nth (Z.to_nat j) ws 0) f c lam (Bk k * u) M ltac:(lia) ltac:(nra) W Hfc) as X1.
  pose proof (piece_lip k f c lam (lamC g c y) M ltac:(lia) Hfc) as X2.
  rewrite (wsum_piece k g f c y Hk Hg Ha) in HL.
  assert (0 <= IZR (k + 1)) by (apply IZR_le; lia).
  assert (X3 : IZR (k + 1) * (Rabs (lam - lamC g c y) * M) <= IZR (k + 1) * (d * M)).
  { apply Rmult_le_compat_l; auto. apply Rmult_le_compat_r; auto. }
  set (S := zsum (k + 1) _) in *. set (P := piece k f c (lamC g c y)) in *. set (Q := piece k f c lam) in *. set (V := wsum k 0 g f x) in *.
  replace (S - V) with ((S - Q) + (Q - P) + (P - V)) by ring.
  pose proof (Rabs_triang (S - Q + (Q - P)) (P - V)). pose proof (Rabs_triang (S - Q) (Q - P)).
  replace ((IZR (k + 1) * (Bk k * u + d) + e) * M) with (IZR (k + 1) * (Bk k * u * M) + IZR (k + 1) * (d * M) + e * M) by ring. lra.
Qed.
Lemma close_weaken k g x br e e' : (0 <= k)%Z -> close k g x br e -> e <= e' -> close k g x br e'.
Proof.
  destruct br as [[c lam] del]. intros Hk0 (Hc & ws & E & L & W) Le. split; [auto|]. exists ws. split; [auto|]. split; [auto|].
  intros f M Hf. specialize (W f M Hf). assert (0 <= M); [|nra].
  specialize (Hf 0%Z). pose proof (Rabs_pos (f 0%Z)). assert (0 <= 0 < csize k g)%Z as Q; [|specialize (Hf Q); lra].
  unfold csize. lia.
Qed.

Lemma floor_R x : @n_floor R N x = Zfloor x.
Proof. symmetry. apply Zfloor_imp. rewrite plus_IZR. apply (r_floor N u HN). Qed.
Lemma divE_N x y : y <> 0 -> @divE R N x y = Ok (x ⊘ y).
Proof. intros H. unfold divE. rewrite is0_R; auto. Qed.
End Rounded.
