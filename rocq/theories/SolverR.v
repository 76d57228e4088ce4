(** The band solver over the reals: it returns the coefficients of the natural spline, which
    are unique. *)
From Coq Require Import ZArith List Bool Reals Lia Lra Psatz ZifyBool.
From Verif Require Import Base BaseFacts SplineModel Spec PrefilterModel PrefilterGeneric EvalR RSum.
Import ListNotations.
Open Scope R_scope.

(** Interpolation equations and zero second differences at both ends. *)
Definition natural (M : Z) (dv g : Z -> R) : Prop :=
  (forall i, (0 <= i < M)%Z -> (g i + 4 * g (i + 1)%Z + g (i + 2)%Z) / 6 = dv i) /\
  g 0%Z - 2 * g 1%Z + g 2%Z = 0 /\
  g (M - 1)%Z - 2 * g M + g (M + 1)%Z = 0.

Lemma tidiv_R (f : @tbl R) r c r' c' : f r' c' <> 0 -> tidiv f r c r' c' = Ok (fset f r c (f r c / f r' c')).
Proof. intros H. unfold tidiv. now rewrite divE_R. Qed.

Ltac fs := unfold fset; repeat (rewrite ?Z.eqb_refl, ?andb_false_r, ?andb_true_r; cbn [andb Z.eqb Pos.eqb]).

Definition row4 (f : @tbl R) r a b c d := f r 0%Z = a /\ f r 1%Z = b /\ f r 2%Z = c /\ f r 3%Z = d.

Lemma t_first_R (f : @tbl R) a d :
  a <> 0 -> row4 f 0 a (-2 * a) a 0 -> row4 f 1 (1/6) (2/3) (1/6) d ->
  exists f', t_first f = Ok f' /\ row4 f' 0 0 (-2) 1 0 /\ f' 1%Z 2%Z = 0 /\ f' 1%Z 3%Z = d /\
    forall r c, (2 <= r)%Z -> f' r c = f r c.
Proof.
  intros Ha (A0 & A1 & A2 & A3) (B0 & B1 & B2 & B3). unfold t_first.
  rewrite tidiv_R by (fs; congruence). cbn [bind].
  rewrite tidiv_R by (fs; congruence). cbn [bind].
  rewrite tidiv_R by (fs; congruence). cbn [bind]. unfold tisub.
  rewrite tidiv_R.
  2: { fs. cbn. rewrite A0, A1, B0, B1. intros E. apply (Rmult_eq_compat_r a) in E. field_simplify in E; lra. }
  cbn [bind].
  rewrite tidiv_R.
  2: { fs. cbn. rewrite A0, A1, B0, B1. intros E. apply (Rmult_eq_compat_r a) in E. field_simplify in E; lra. }
  cbn [bind]. eexists; split; [reflexivity|].
  assert (P : 2 / 3 - 1 / 6 * (-2 * a / a) = 1) by (field; auto).
  split; [|split; [|split]].
  - unfold row4. fs. cbn. rewrite A0, A1, A2, A3. repeat split; field; auto.
  - fs. cbn. rewrite A0, A1, A2, B0, B1, B2, P. field; auto.
  - fs. cbn. rewrite A0, A1, A3, B0, B1, B3, P. field; auto.
  - intros r c Hr. unfold fset. replace (r =? 0)%Z with false by lia.
    replace (r =? 1)%Z with false by lia. reflexivity.
Qed.

Lemma t_row_R (f : @tbl R) r d p q :
  row4 f r (1/6) (2/3) (1/6) d -> f (r - 1)%Z 2%Z = p -> f (r - 1)%Z 3%Z = q -> 0 <= p <= 1/3 ->
  exists f', t_row f r = Ok f' /\ f' r 2%Z = 1 / (4 - p) /\ f' r 3%Z = (6 * d - q) / (4 - p) /\
    forall r' c, r' <> r -> f' r' c = f r' c.
Proof.
  intros (B0 & B1 & B2 & B3) Hp Hq Hb. unfold t_row, tisub.
  assert (Er : (r - 1 =? r)%Z = false) by lia.
  rewrite tidiv_R.
  2: { fs. rewrite ?Er. cbn [andb]. rewrite B0, B1, Hp. cbn. lra. }
  cbn [bind].
  rewrite tidiv_R.
  2: { fs. rewrite ?Er. cbn [andb]. rewrite B0, B1, Hp. cbn. lra. }
  cbn [bind]. eexists; split; [reflexivity|]. split; [|split].
  - fs. rewrite ?Er. cbn [andb]. rewrite B0, B1, B2, Hp. cbn. field. lra.
  - fs. rewrite ?Er. cbn [andb]. rewrite B0, B1, B3, Hp, Hq. cbn. field. lra.
  - intros r' c Hr. unfold fset. replace (r' =? r)%Z with false by lia. reflexivity.
Qed.

Lemma t_last_R M (f : @tbl R) a p' q' p q :
  a <> 0 -> row4 f (M + 1) a (-2 * a) a 0 ->
  f (M - 1)%Z 2%Z = p' -> f (M - 1)%Z 3%Z = q' -> f M 2%Z = p -> f M 3%Z = q ->
  0 <= p' <= 1/3 -> 0 <= p <= 1/3 ->
  exists f', t_last M f = Ok f' /\
    f' (M + 1)%Z 3%Z = ((2 + p') * q - q') / (1 + (2 + p') * p) /\
    forall r c, r <> (M + 1)%Z -> f' r c = f r c.
Proof.
  intros Ha (A0 & A1 & A2 & A3) Hp' Hq' Hp Hq Hb' Hb. unfold t_last, tisub.
  assert (E1 : (M - 1 =? M + 1)%Z = false) by lia. assert (E2 : (M =? M + 1)%Z = false) by lia.
  assert (HP : 0 <= p' * p) by nra.
  assert (P : 1 + (2 + p') * p <> 0) by nra.
  rewrite tidiv_R.
  2: { fs. rewrite ?E1, ?E2. cbn [andb]. rewrite A0, A1, A2, Hp', Hp. cbn.
       replace (a - (-2 * a - a * p') * p) with (a * (1 + (2 + p') * p)) by ring.
       now apply Rmult_integral_contrapositive. }
  cbn [bind]. eexists; split; [reflexivity|]. split.
  - fs. rewrite ?E1, ?E2. cbn [andb]. rewrite A0, A1, A2, A3, Hp', Hp, Hq', Hq.
    cbn. field. split; auto.
    replace (a - (-2 * a - a * p') * p) with (a * (1 + (2 + p') * p)) by ring.
    now apply Rmult_integral_contrapositive.
  - intros r c Hr. unfold fset. replace (r =? M + 1)%Z with false by lia. reflexivity.
Qed.

Lemma t_solve_R M del dv : (2 <= M)%Z -> del <> 0 ->
  exists f, t_solve M (t_bands del dv M) = Ok f /\ row4 f 0 0 (-2) 1 0 /\
    f 1%Z 2%Z = 0 /\ f 1%Z 3%Z = dv 0%Z /\
    (forall r, (1 <= r <= M)%Z -> 0 <= f r 2%Z <= 1/3) /\
    (forall r, (2 <= r <= M)%Z -> (4 - f (r-1)%Z 2%Z) * f r 2%Z = 1 /\
       (4 - f (r-1)%Z 2%Z) * f r 3%Z = 6 * dv (r-1)%Z - f (r-1)%Z 3%Z) /\
    (1 + (2 + f (M-1)%Z 2%Z) * f M 2%Z) * f (M+1)%Z 3%Z = (2 + f (M-1)%Z 2%Z) * f M 3%Z - f (M-1)%Z 3%Z.
Proof.
  intros HM Hd. unfold t_solve.
  set (f0 := t_bands del dv M).
  assert (HE : row4 f0 0 (del * del) (-2 * (del * del)) (del * del) 0 /\
               row4 f0 (M + 1) (del * del) (-2 * (del * del)) (del * del) 0).
  { unfold row4, f0, t_bands. rewrite !Z.eqb_refl, !orb_true_r. cbn. repeat split; ring. }
  assert (HR : forall r, (1 <= r <= M)%Z -> row4 f0 r (1/6) (2/3) (1/6) (dv (r - 1)%Z)).
  { intros r Hr. unfold row4, f0, t_bands. replace (r =? 0)%Z with false by lia.
    replace (r =? M + 1)%Z with false by lia. cbn. repeat split; lra. }
  destruct HE as [HE0 HE1].
  assert (Ha : del * del <> 0) by (apply Rmult_integral_contrapositive; auto).
  destruct (t_first_R f0 (del * del) (dv 0%Z) Ha HE0 (HR 1%Z ltac:(lia))) as [f1 (E1 & F0 & F2 & F3 & FO)].
  rewrite E1. cbn [bind].
  destruct (foldM_zrange2 t_row (fun i f => row4 f 0 0 (-2) 1 0 /\ f 1%Z 2%Z = 0 /\ f 1%Z 3%Z = dv 0%Z /\
    (forall r, (1 <= r < i)%Z -> 0 <= f r 2%Z <= 1/3) /\
    (forall r, (2 <= r < i)%Z -> (4 - f (r-1)%Z 2%Z) * f r 2%Z = 1 /\
       (4 - f (r-1)%Z 2%Z) * f r 3%Z = 6 * dv (r-1)%Z - f (r-1)%Z 3%Z) /\
    (forall r c, (i <= r)%Z -> f r c = f0 r c)) 2 (M + 1) f1) as [f2 (E2 & G0 & G1 & G2 & G3 & G4 & G5)].
  - lia.
  - split; [auto|]. split; [auto|]. split; [auto|]. split; [|split].
    + intros r Hr. replace r with 1%Z by lia. lra.
    + intros; lia.
    + intros; apply FO; lia.
  - intros i f Hi (G0 & G1 & G2 & G3 & G4 & G5).
    pose proof (HR i ltac:(lia)) as HRi. unfold row4 in HRi. rewrite <- !G5 in HRi by lia.
    pose proof (G3 (i - 1)%Z ltac:(lia)) as Hp.
    destruct (t_row_R f i (dv (i - 1)%Z) _ _ HRi eq_refl eq_refl Hp) as [f' (E & P & Q & O)].
    exists f'. split; auto.
    assert (P4 : 0 < 4 - f (i - 1)%Z 2%Z) by lra.
    unfold row4 in *. rewrite !O by lia. split; [auto|]. split; [auto|]. split; [auto|]. split; [|split].
    + intros r Hr. destruct (Z.eq_dec r i) as [->|]; [|rewrite O by auto; apply G3; lia].
      rewrite P. split. apply Rlt_le, Rdiv_lt_0_compat; lra.
      apply (Rmult_le_reg_r (4 - f (i - 1)%Z 2%Z)); auto. field_simplify; lra.
    + intros r Hr. rewrite (O (r - 1)%Z) by lia. rewrite (O (r - 1)%Z) by lia.
      destruct (Z.eq_dec r i) as [->|]; [|rewrite !O by auto; apply G4; lia].
      rewrite P, Q. split; field; lra.
    + intros r c Hr. rewrite O by lia. apply G5; lia.
  - rewrite E2. cbn [bind].
    unfold row4 in HE1. rewrite <- !G5 in HE1 by lia.
    destruct (t_last_R M f2 (del * del) _ _ _ _ Ha HE1 eq_refl eq_refl eq_refl eq_refl
       (G3 (M - 1)%Z ltac:(lia)) (G3 M ltac:(lia))) as [f3 (E3 & Q & O)].
    exists f3. split; auto. unfold row4 in *. rewrite !O by lia.
    split; [auto|]. split; [auto|]. split; [auto|]. split; [|split].
    + intros r Hr. rewrite O by lia. apply G3; lia.
    + intros r Hr. rewrite !O by lia. apply G4; lia.
    + rewrite Q, !O by lia. pose proof (G3 (M - 1)%Z ltac:(lia)). pose proof (G3 M ltac:(lia)).
      assert (0 <= f2 (M-1)%Z 2%Z * f2 M 2%Z) by nra. field. nra.
Qed.

Lemma t_back_eqs M (f : @tbl R) g0 : (2 <= M)%Z ->
  let g := t_back M f g0 in
  g (M + 1)%Z = f (M + 1)%Z 3%Z /\
  (forall r, (1 <= r <= M)%Z -> g r = f r 3%Z - f r 2%Z * g (r + 1)%Z) /\
  g 0%Z = f 0%Z 3%Z - f 0%Z 1%Z * g 1%Z - f 0%Z 2%Z * g 2%Z.
Proof.
  intros HM. cbv zeta. unfold t_back.
  set (st := fun g row => _).
  assert (A : forall k, (0 <= k)%Z -> (k <= M)%Z ->
     let G := fold_left st (map (fun i => (M - i)%Z) (zrange k)) (zset g0 (M + 1) (f (M + 1)%Z 3%Z)) in
     G (M + 1)%Z = f (M + 1)%Z 3%Z /\
     forall r, (M + 1 - k <= r <= M)%Z -> G r = f r 3%Z - f r 2%Z * G (r + 1)%Z).
  { intros k Hk. pattern k. apply natlike_ind; auto.
    - intros _. rewrite zrange_nil by lia. cbn [map fold_left]. split; [|intros; lia].
      unfold zset. now rewrite Z.eqb_refl.
    - clear k Hk. intros k Hk0 IH Hk. specialize (IH ltac:(lia)). cbv zeta in *.
      unfold Z.succ. rewrite zrange_S, map_app, fold_left_app by lia. cbn [map fold_left].
      revert IH. set (G := fold_left st (map _ (zrange k)) _). intros [I1 I2].
      unfold st, zset. split.
      + replace (M + 1 =? M - k)%Z with false by lia. auto.
      + intros r Hr. replace (r + 1 =? M - k)%Z with false by lia.
        destruct (Z.eqb_spec r (M - k)) as [->|]; [reflexivity|]. apply I2. lia. }
  specialize (A M ltac:(lia) ltac:(lia)). cbv zeta in A.
  unfold zrange_down. replace (M - 0)%Z with M by lia.
  revert A. set (G := fold_left st _ _). intros [A1 A2]. unfold zset. cbn [Z.eqb].
  split; [|split].
  - replace (M + 1 =? 0)%Z with false by lia. auto.
  - intros r Hr. replace (r =? 0)%Z with false by lia. replace (r + 1 =? 0)%Z with false by lia.
    apply A2; lia.
  - reflexivity.
Qed.

Theorem sol_natural M del dv : (2 <= M)%Z -> del <> 0 ->
  exists g, sol M del dv = Ok g /\ natural M dv g.
Proof.
  intros HM Hd. destruct (t_solve_R M del dv HM Hd) as [f (E & (_ & A1 & A2 & A3) & B2 & B3 & Hp & Hr & Hl)].
  unfold sol. rewrite E. cbn [bind]. eexists; split; [reflexivity|].
  pose proof (t_back_eqs M f (fun _ => n_ofZ 0) HM) as G. revert G.
  set (g := t_back M f _). cbv zeta. intros (G1 & G2 & G0).
  rewrite A1, A2, A3 in G0.
  assert (E1 : g 1%Z = dv 0%Z) by (rewrite (G2 1%Z) by lia; rewrite B2, B3; ring).
  split; [|split].
  - intros i Hi. destruct (Z.eq_dec i 0) as [->|].
    + change (0 + 1)%Z with 1%Z. change (0 + 2)%Z with 2%Z. lra.
    + destruct (Hr (i + 1)%Z ltac:(lia)) as [R1 R2].
      replace (i + 1 - 1)%Z with i in * by lia.
      pose proof (G2 i ltac:(lia)) as Gi. pose proof (G2 (i + 1)%Z ltac:(lia)) as Gi1.
      replace (i + 1 + 1)%Z with (i + 2)%Z in * by lia.
      assert (H : (4 - f i 2%Z) * g (i + 1)%Z = 6 * dv i - f i 3%Z - g (i + 2)%Z).
      { rewrite Gi1. rewrite Rmult_minus_distr_l, R2, <- Rmult_assoc, R1. ring. }
      rewrite Gi. lra.
  - lra.
  - pose proof (G2 M ltac:(lia)) as GM. pose proof (G2 (M - 1)%Z ltac:(lia)) as GM1.
    replace (M - 1 + 1)%Z with M in GM1 by lia. rewrite GM1, GM, G1 in *.
    set (c := f (M + 1)%Z 3%Z) in *. set (p := f M 2%Z) in *. set (p' := f (M-1)%Z 2%Z) in *. lra.
Qed.

(** Uniqueness. *)
Lemma natural_zero M h : (2 <= M)%Z -> natural M (fun _ => 0) h -> forall i, (0 <= i <= M + 1)%Z -> h i = 0.
Proof.
  intros HM (HI & HL & HR).
  assert (H1 : h 1%Z = 0). { pose proof (HI 0%Z ltac:(lia)) as E. cbn in E. lra. }
  assert (HMz : h M = 0).
  { pose proof (HI (M - 1)%Z ltac:(lia)) as E. replace (M - 1 + 1)%Z with M in E by lia.
    replace (M - 1 + 2)%Z with (M + 1)%Z in E by lia. lra. }
  assert (P : forall i, (0 <= i)%Z -> (i + 1 < M)%Z -> exists p, 0 <= p <= 1/3 /\ h (i + 1)%Z = - p * h (i + 2)%Z).
  { intros i Hi. pattern i. apply natlike_ind; auto.
    - intros _. exists 0. cbn. lra.
    - clear i Hi. intros i Hi IH Hi2. unfold Z.succ in *. destruct (IH ltac:(lia)) as [p [Hp E]].
      exists (1 / (4 - p)). pose proof (HI (i + 1)%Z ltac:(lia)) as Q.
      replace (i + 1 + 1)%Z with (i + 2)%Z in * by lia. split.
      + split. apply Rlt_le, Rdiv_lt_0_compat; lra.
        apply (Rmult_le_reg_r (4 - p)); [lra|]. field_simplify; lra.
      + rewrite E in Q. apply (Rmult_eq_reg_l (4 - p)); [|lra]. field_simplify; lra. }
  assert (B : forall j, (0 <= j)%Z -> (j <= M - 1)%Z -> h (M - j)%Z = 0).
  { intros j Hj. pattern j. apply natlike_ind; auto.
    - intros _. now rewrite Z.sub_0_r.
    - clear j Hj. intros j Hj IH Hj2. unfold Z.succ in *.
      destruct (P (M - j - 2)%Z) as [p [_ E]]; try lia.
      replace (M - j - 2 + 1)%Z with (M - (j + 1))%Z in E by lia.
      replace (M - j - 2 + 2)%Z with (M - j)%Z in E by lia. rewrite E, IH by lia. ring. }
  assert (B' : forall i, (1 <= i <= M)%Z -> h i = 0).
  { intros i Hi. replace i with (M - (M - i))%Z by lia. apply B; lia. }
  intros i Hi. destruct (Z.eq_dec i 0) as [->|].
  - rewrite (B' 1%Z), (B' 2%Z) in HL by lia. lra.
  - destruct (Z.eq_dec i (M + 1)) as [->|]; [|apply B'; lia].
    rewrite (B' (M - 1)%Z), (B' M) in HR by lia. lra.
Qed.

Lemma natural_lin M dv dv' g g' s t : natural M dv g -> natural M dv' g' ->
  natural M (fun i => s * dv i + t * dv' i) (fun i => s * g i + t * g' i).
Proof.
  intros (A & B & C) (A' & B' & C'). split; [|split].
  - intros i Hi. rewrite <- A, <- A' by auto. field.
  - replace 0 with (s * 0 + t * 0) by ring. rewrite <- B at 1. rewrite <- B'. ring.
  - replace 0 with (s * 0 + t * 0) by ring. rewrite <- C at 1. rewrite <- C'. ring.
Qed.

Lemma natural_ext M dv dv' g : (forall i, (0 <= i < M)%Z -> dv i = dv' i) -> natural M dv g -> natural M dv' g.
Proof. intros H (A & B & C). split; [|auto]. intros. rewrite A by auto. auto. Qed.

Theorem natural_unique M dv g g' : (2 <= M)%Z -> natural M dv g -> natural M dv g' ->
  forall i, (0 <= i <= M + 1)%Z -> g i = g' i.
Proof.
  intros HM H H' i Hi.
  pose proof (natural_lin M dv dv g g' 1 (-1) H H') as L.
  apply (natural_ext M _ (fun _ => 0)) in L; [|intros; ring].
  pose proof (natural_zero M _ HM L i Hi) as E. cbv beta in E. lra.
Qed.

(** The solution as a function. *)
Definition solR (M : Z) (dv : Z -> R) : Z -> R := match sol M 1 dv with Ok g => g | Err _ => fun _ => 0 end.

Lemma solR_natural M dv : (2 <= M)%Z -> natural M dv (solR M dv).
Proof. intros H. unfold solR. destruct (sol_natural M 1 dv H ltac:(lra)) as [g [E G]]. now rewrite E. Qed.

Lemma sol_solR M del dv g : (2 <= M)%Z -> del <> 0 -> sol M del dv = Ok g ->
  forall i, (0 <= i < M + 2)%Z -> g i = solR M dv i.
Proof.
  intros HM Hd E i Hi. destruct (sol_natural M del dv HM Hd) as [g' [E' G]].
  rewrite E in E'. inversion E'; subst.
  apply (natural_unique M dv); auto using solR_natural. lia.
Qed.

Lemma solR_unique M dv g : (2 <= M)%Z -> natural M dv g -> forall i, (0 <= i < M + 2)%Z -> solR M dv i = g i.
Proof. intros HM H i Hi. apply (natural_unique M dv); auto using solR_natural. lia. Qed.

Lemma solR_ext M dv dv' : (2 <= M)%Z -> (forall i, (0 <= i < M)%Z -> dv i = dv' i) ->
  forall i, (0 <= i < M + 2)%Z -> solR M dv i = solR M dv' i.
Proof. intros HM H i Hi. apply solR_unique; auto. eapply natural_ext; [|apply solR_natural]; auto. intros; symmetry; auto. Qed.
