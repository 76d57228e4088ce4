(** Proofs about basis_splines.py over the reals. *)
From Coq Require Import ZArith List Bool Reals Lia Lra Psatz ZifyBool.
From Coquelicot Require Import Coquelicot.
From Flocq Require Import Core.Raux.
From Verif Require Import Base BaseFacts SplineModel Spec EvalR RSum WeightsR BasisModel SpecBasis.
Import ListNotations.
Open Scope R_scope.

Definition incr (U : Z -> R) (lo hi : Z) : Prop := forall i, (lo <= i < hi)%Z -> U i < U (i + 1)%Z.

Lemma incr_lt U lo hi i j : incr U lo hi -> (lo <= i)%Z -> (i < j)%Z -> (j <= hi)%Z -> U i < U j.
Proof.
  intros H Hi Hij Hj.
  assert (G : forall m, (0 <= m)%Z -> (i + 1 + m <= hi)%Z -> U i < U (i + 1 + m)%Z).
  { apply (zsum_ind (fun m => (i + 1 + m <= hi)%Z -> U i < U (i + 1 + m)%Z)).
    - intros. rewrite Z.add_0_r. apply H. lia.
    - intros m Hm IH Hh. specialize (IH ltac:(lia)). pose proof (H (i + 1 + m)%Z ltac:(lia)).
      rewrite Z.add_assoc. lra. }
  replace j with (i + 1 + (j - i - 1))%Z by lia. apply G; lia.
Qed.
Lemma incr_sub U lo hi lo' hi' : incr U lo hi -> (lo <= lo')%Z -> (hi' <= hi)%Z -> incr U lo' hi'.
Proof. intros H H1 H2 i Hi. apply H. lia. Qed.

(** The recursion over the reals. *)
Fixpoint Br (U : Z -> R) (p : nat) (i : Z) (x : R) : R :=
  match p with
  | O => if Rlt_dec x (U i) then 0 else if Rlt_dec x (U (i + 1)%Z) then 1 else 0
  | S p' => (x - U i) / (U (i + Z.of_nat p)%Z - U i) * Br U p' i x
            + (U (i + Z.of_nat p + 1)%Z - x) / (U (i + Z.of_nat p + 1)%Z - U (i + 1)%Z) * Br U p' (i + 1) x
  end.

Lemma pyget_knot u i : (0 <= i < zlen u)%Z -> pyget u i = Ok (knot u i).
Proof.
  intros H. unfold pyget, knot. replace (i <? 0)%Z with false by lia. apply lget_ok. lia.
Qed.

Lemma increasing_incr u : increasing u -> incr (knot u) 0 (zlen u - 1).
Proof. intros H i Hi. apply H; lia. Qed.

Lemma B_ok u : increasing u -> forall p i x, (0 <= i)%Z -> (i + Z.of_nat p + 1 < zlen u)%Z ->
  B p u i x = Ok (Br (knot u) p i x).
Proof.
  intros Hu' p. pose proof (increasing_incr _ Hu') as Hu. induction p as [|p IH]; intros i x Hi Hp.
  - cbn [B Br]. unfold B0. rewrite !pyget_knot by lia. cbn.
    destruct (Rle_bool_spec (knot u i) x), (Rlt_dec x (knot u i)); try lra; auto.
    destruct (Rlt_bool_spec x (knot u (i + 1))), (Rlt_dec x (knot u (i + 1))); try lra; auto.
  - cbn [B]. rewrite !pyget_knot by lia. cbn [bind].
    pose proof (incr_lt _ _ _ i (i + Z.of_nat (S p)) Hu ltac:(lia) ltac:(lia) ltac:(lia)).
    pose proof (incr_lt _ _ _ (i + 1) (i + Z.of_nat (S p) + 1) Hu ltac:(lia) ltac:(lia) ltac:(lia)).
    rewrite !divE_R by (change (@n_sub R NumR) with Rminus; lra). cbn [bind]. rewrite !IH by lia. cbn [bind]. reflexivity.
Qed.

(** ** The recursion computes the divided differences of truncated powers *)
Lemma denom_last U i m n : (m < Z.of_nat n)%Z ->
  denom U i m (S n) = denom U i m n * (U (i + m)%Z - U (i + Z.of_nat n)%Z).
Proof. intros H. cbn [denom]. now replace (m =? Z.of_nat n)%Z with false by lia. Qed.

Lemma denom_self U i n : denom U i (Z.of_nat n) (S n) = denom U i (Z.of_nat n) n.
Proof. cbn [denom]. rewrite Z.eqb_refl. ring. Qed.

Lemma denom_first U i m n : (0 < m)%Z ->
  denom U i m (S n) = (U (i + m)%Z - U i) * denom U (i + 1) (m - 1) n.
Proof.
  intros H. induction n as [|n IH].
  - cbn [denom]. replace (m =? Z.of_nat 0)%Z with false by lia.
    replace (i + Z.of_nat 0)%Z with i by lia. ring.
  - cbn [denom] in *. rewrite IH.
    replace (m - 1 =? Z.of_nat n)%Z with (m =? Z.of_nat (S n))%Z by lia.
    replace (i + 1 + (m - 1))%Z with (i + m)%Z by lia.
    replace (i + 1 + Z.of_nat n)%Z with (i + Z.of_nat (S n))%Z by lia. ring.
Qed.

Lemma denom_neq0 U lo hi i m n : incr U lo hi -> (lo <= i)%Z -> (0 <= m)%Z -> (i + m <= hi)%Z ->
  (i + Z.of_nat n - 1 <= hi)%Z -> denom U i m n <> 0.
Proof.
  intros H Hl Hm Hh. induction n as [|n IH]; intros Hn; cbn [denom]; [lra|].
  apply Rmult_integral_contrapositive. split; [apply IH; lia|].
  destruct (Z.eqb_spec m (Z.of_nat n)); [lra|].
  destruct (Z.lt_trichotomy m (Z.of_nat n)) as [L|[L|L]]; try lia.
  - pose proof (incr_lt U lo hi (i + m) (i + Z.of_nat n) H ltac:(lia) ltac:(lia) ltac:(lia)). lra.
  - pose proof (incr_lt U lo hi (i + Z.of_nat n) (i + m) H ltac:(lia) ltac:(lia) ltac:(lia)). lra.
Qed.

(** The divided difference without the factor. *)
Definition dd (U : Z -> R) (f : R -> R) (i : Z) (n : nat) : R :=
  zsum (Z.of_nat n + 1) (fun m => f (U (i + m)%Z) / denom U i m (S n)).

Lemma dd_step U lo hi f g c0 c1 i n :
  incr U lo hi -> (lo <= i)%Z -> (i + Z.of_nat n + 1 <= hi)%Z ->
  (forall m, (0 <= m <= Z.of_nat n + 1)%Z ->
     f (U (i + m)%Z) = g (U (i + m)%Z) * (c0 * (U (i + m)%Z - U (i + Z.of_nat n + 1)%Z) + c1 * (U (i + m)%Z - U i))) ->
  dd U f i (S n) = c0 * dd U g i n + c1 * dd U g (i + 1) n.
Proof.
  intros H Hl Hh Hf. unfold dd.
  assert (E0 : zsum (Z.of_nat n + 1) (fun m => g (U (i + m)%Z) / denom U i m (S n)) =
     zsum (Z.of_nat (S n) + 1) (fun m => g (U (i + m)%Z) * (U (i + m)%Z - U (i + Z.of_nat n + 1)%Z) / denom U i m (S (S n)))).
  { replace (Z.of_nat (S n) + 1)%Z with (Z.of_nat n + 1 + 1)%Z by lia. rewrite (zsum_S (Z.of_nat n + 1)) by lia.
    rewrite <- (Rplus_0_r (zsum _ (fun m => g (U (i + m)%Z) / denom U i m (S n)))). f_equal.
    - apply zsum_ext. intros m Hm. rewrite (denom_last _ _ _ (S n)) by lia.
      replace (i + Z.of_nat (S n))%Z with (i + Z.of_nat n + 1)%Z by lia.
      pose proof (denom_neq0 U lo hi i m (S n) H ltac:(lia) ltac:(lia) ltac:(lia) ltac:(lia)).
      pose proof (incr_lt U lo hi (i + m) (i + Z.of_nat n + 1) H ltac:(lia) ltac:(lia) ltac:(lia)).
      field; repeat split; auto; lra.
    - replace (i + (Z.of_nat n + 1))%Z with (i + Z.of_nat n + 1)%Z by lia. unfold Rdiv. ring. }
  assert (E1 : zsum (Z.of_nat n + 1) (fun m => g (U (i + 1 + m)%Z) / denom U (i + 1) m (S n)) =
     zsum (Z.of_nat (S n) + 1) (fun m => g (U (i + m)%Z) * (U (i + m)%Z - U i) / denom U i m (S (S n)))).
  { replace (Z.of_nat (S n) + 1)%Z with (Z.of_nat n + 1 + 1)%Z by lia. rewrite (zsum_first (Z.of_nat n + 1 + 1)) by lia.
    rewrite <- (Rplus_0_l (zsum _ (fun m => g (U (i + 1 + m)%Z) / denom U (i + 1) m (S n)))). f_equal.
    - rewrite Z.add_0_r. unfold Rdiv. ring.
    - replace (Z.of_nat n + 1 + 1 - 1)%Z with (Z.of_nat n + 1)%Z by lia. apply zsum_ext. intros m Hm.
      rewrite (denom_first _ _ _ (S n)) by lia.
      replace (m + 1 - 1)%Z with m by lia. replace (i + (m + 1))%Z with (i + 1 + m)%Z by lia.
      pose proof (denom_neq0 U lo hi (i + 1) m (S n) H ltac:(lia) ltac:(lia) ltac:(lia) ltac:(lia)).
      pose proof (incr_lt U lo hi i (i + 1 + m) H ltac:(lia) ltac:(lia) ltac:(lia)).
      field; repeat split; auto; lra. }
  rewrite E0, E1, <- !zsum_scal, <- zsum_plus. apply zsum_ext. intros m Hm. rewrite Hf by lia. unfold Rdiv. ring.
Qed.

Lemma tpow_S p y : tpow (S p) y = tpow p y * y.
Proof. unfold tpow. destruct (Rlt_dec 0 y); cbn; ring. Qed.

Lemma bspline_dd U p i x : bspline U p i x = (U (i + Z.of_nat p + 1)%Z - U i) * dd U (fun t => tpow p (t - x)) i (S p).
Proof.
  unfold bspline, dd. replace (Z.of_nat (S p) + 1)%Z with (Z.of_nat p + 2)%Z by lia.
  now replace (p + 2)%nat with (S (S p)) by lia.
Qed.

Lemma Br_bspline U lo hi : incr U lo hi -> forall p i x, (lo <= i)%Z -> (i + Z.of_nat p + 1 <= hi)%Z ->
  Br U p i x = bspline U p i x.
Proof.
  intros H p. induction p as [|p IH]; intros i x Hl Hh.
  - unfold bspline. cbn [Br]. replace (Z.of_nat 0 + 2)%Z with 2%Z by lia. rewrite zsum_2.
    replace (i + Z.of_nat 0 + 1)%Z with (i + 1)%Z by lia. rewrite Z.add_0_r.
    pose proof (H i ltac:(lia)). unfold tpow.
    replace (denom U i 0 (0 + 2)) with (U i - U (i + 1)%Z) by (cbn; rewrite Z.add_0_r; ring).
    replace (denom U i 1 (0 + 2)) with (U (i + 1)%Z - U i) by (cbn; rewrite Z.add_0_r; ring).
    destruct (Rlt_dec x (U i)), (Rlt_dec 0 (U i - x)), (Rlt_dec 0 (U (i + 1)%Z - x)),(Rlt_dec x (U (i + 1)%Z));
      try lra; cbn [pow]; try (field; lra); unfold Rdiv; ring.
  - cbn [Br]. rewrite !IH by lia. rewrite !bspline_dd.
    pose proof (incr_lt U lo hi i (i + Z.of_nat (S p)) H ltac:(lia) ltac:(lia) ltac:(lia)).
    pose proof (incr_lt U lo hi (i + 1) (i + Z.of_nat (S p) + 1) H ltac:(lia) ltac:(lia) ltac:(lia)).
    pose proof (incr_lt U lo hi i (i + Z.of_nat (S p) + 1) H ltac:(lia) ltac:(lia) ltac:(lia)).
    replace (i + 1 + Z.of_nat p + 1)%Z with (i + Z.of_nat (S p) + 1)%Z by lia.
    replace (i + Z.of_nat p + 1)%Z with (i + Z.of_nat (S p))%Z by lia.
    set (e := U i) in *. set (w := U (i + Z.of_nat (S p) + 1)%Z) in *.
    rewrite (dd_step U lo hi _ (fun t => tpow p (t - x)) ((x - e) / (w - e)) ((w - x) / (w - e)) i (S p) H ltac:(lia) ltac:(lia)).
    + field. lra.
    + intros m Hm. rewrite tpow_S. fold e w. field. lra.
Qed.

(** ** Support, sign *)
Lemma Br_outside U lo hi : incr U lo hi -> forall p i x, (lo <= i)%Z -> (i + Z.of_nat p + 1 <= hi)%Z ->
  x < U i \/ U (i + Z.of_nat p + 1)%Z <= x -> Br U p i x = 0.
Proof.
  intros H p. induction p as [|p IH]; intros i x Hl Hh Hx.
  - cbn [Br]. replace (i + Z.of_nat 0 + 1)%Z with (i + 1)%Z in Hx by lia.
    destruct (Rlt_dec x (U i)); auto. destruct (Rlt_dec x (U (i + 1)%Z)); auto. lra.
  - cbn [Br]. rewrite !IH; try lia; [ring| |].
    + replace (i + 1 + Z.of_nat p + 1)%Z with (i + Z.of_nat (S p) + 1)%Z by lia.
      pose proof (H i ltac:(lia)). lra.
    + pose proof (incr_lt U lo hi (i + Z.of_nat p + 1) (i + Z.of_nat (S p) + 1) H ltac:(lia) ltac:(lia) ltac:(lia)). lra.
Qed.

Lemma Br_pos U lo hi : incr U lo hi -> forall p i x, (lo <= i)%Z -> (i + Z.of_nat p + 1 <= hi)%Z ->
  0 <= Br U p i x /\ (U i < x < U (i + Z.of_nat p + 1)%Z -> 0 < Br U p i x).
Proof.
  intros H p. induction p as [|p IH]; intros i x Hl Hh.
  - cbn [Br]. replace (i + Z.of_nat 0 + 1)%Z with (i + 1)%Z by lia.
    destruct (Rlt_dec x (U i)); [lra|]. destruct (Rlt_dec x (U (i + 1)%Z)); lra.
  - cbn [Br]. destruct (IH i x ltac:(lia) ltac:(lia)) as [A1 A2].
    destruct (IH (i + 1)%Z x ltac:(lia) ltac:(lia)) as [B1 B2].
    pose proof (incr_lt U lo hi i (i + Z.of_nat (S p)) H ltac:(lia) ltac:(lia) ltac:(lia)).
    pose proof (incr_lt U lo hi (i + 1) (i + Z.of_nat (S p) + 1) H ltac:(lia) ltac:(lia) ltac:(lia)).
    pose proof (H i ltac:(lia)).
    replace (i + 1 + Z.of_nat p + 1)%Z with (i + Z.of_nat (S p) + 1)%Z in * by lia.
    replace (i + Z.of_nat p + 1)%Z with (i + Z.of_nat (S p))%Z in * by lia.
    pose proof (Br_outside U lo hi H p i x ltac:(lia) ltac:(lia)) as O1.
    pose proof (Br_outside U lo hi H p (i + 1) x ltac:(lia) ltac:(lia)) as O2.
    replace (i + 1 + Z.of_nat p + 1)%Z with (i + Z.of_nat (S p) + 1)%Z in * by lia.
    replace (i + Z.of_nat p + 1)%Z with (i + Z.of_nat (S p))%Z in * by lia.
    set (u0 := U i) in *. set (u1 := U (i + 1)%Z) in *. set (v0 := U (i + Z.of_nat (S p))%Z) in *.
    set (v1 := U (i + Z.of_nat (S p) + 1)%Z) in *. set (b0 := Br U p i x) in *. set (b1 := Br U p (i + 1) x) in *.
    assert (N0 : 0 <= (x - u0) / (v0 - u0) * b0).
    { destruct (Rlt_dec x u0). rewrite O1 by lra. lra.
      apply Rmult_le_pos; auto. apply Rmult_le_pos; [lra|]. left. apply Rinv_0_lt_compat. lra. }
    assert (N1 : 0 <= (v1 - x) / (v1 - u1) * b1).
    { destruct (Rle_dec v1 x). rewrite O2 by lra. lra.
      apply Rmult_le_pos; auto. apply Rmult_le_pos; [lra|]. left. apply Rinv_0_lt_compat. lra. }
    split; [lra|]. intros Hx. destruct (Rlt_dec x v0).
    + assert (0 < (x - u0) / (v0 - u0) * b0); [|lra].
      apply Rmult_lt_0_compat; [apply Rdiv_lt_0_compat; lra|apply A2; lra].
    + assert (u1 <= v0).
      { unfold u1, v0. destruct (Z.eq_dec (i + 1) (i + Z.of_nat (S p))) as [->|]; [lra|].
        left. apply (incr_lt U lo hi); auto; lia. }
      assert (P : 0 < (v1 - x) / (v1 - u1)) by (apply Rdiv_lt_0_compat; lra).
      destruct (Req_dec x u1) as [E|E].
      * (* p = 0 at the left end of the second function *)
        assert (Ep : p = O).
        { destruct p; auto. exfalso. pose proof (incr_lt U lo hi (i + 1) (i + Z.of_nat (S (S p))) H ltac:(lia) ltac:(lia) ltac:(lia)).
          unfold u1, v0 in *. lra. }
        subst p. assert (b1 = 1); [|nra]. unfold b1. cbn [Br].
        destruct (Rlt_dec x (U (i + 1)%Z)); [unfold u1 in E; lra|].
        destruct (Rlt_dec x (U (i + 1 + 1)%Z)); auto. exfalso. unfold v1 in Hx.
        replace (i + Z.of_nat 1 + 1)%Z with (i + 1 + 1)%Z in Hx by lia. lra.
      * assert (0 < b1) by (apply B2; lra). nra.
Qed.

(** ** Marsden's identity and the partition of unity *)
Lemma dual_shift U i t p : dual U i t p * (U i - t) = (U (i + Z.of_nat p)%Z - t) * dual U (i - 1) t p.
Proof.
  induction p as [|p IH]; cbn [dual].
  - replace (i + Z.of_nat 0)%Z with i by lia. ring.
  - replace (i - 1 + Z.of_nat (S p))%Z with (i + Z.of_nat p)%Z by lia.
    replace (dual U i t p * (U (i + Z.of_nat (S p))%Z - t) * (U i - t)) with
      (dual U i t p * (U i - t) * (U (i + Z.of_nat (S p))%Z - t)) by ring.
    rewrite IH. ring.
Qed.

Lemma sum_step U lo hi p l h x (c : Z -> R) : incr U lo hi -> (lo <= l - Z.of_nat p - 1)%Z -> (l < h)%Z ->
  (h + Z.of_nat p + 1 <= hi)%Z -> U l <= x < U h ->
  zsum (h - l + Z.of_nat p + 1) (fun m => c (l - Z.of_nat p - 1 + m)%Z * Br U (S p) (l - Z.of_nat p - 1 + m) x) =
  zsum (h - l + Z.of_nat p) (fun m => let i := (l - Z.of_nat p + m)%Z in let w := (x - U i) / (U (i + Z.of_nat p + 1)%Z - U i) in
     (c i * w + c (i - 1)%Z * (1 - w)) * Br U p i x).
Proof.
  intros H Hl Hlh Hh Hx.
  transitivity (zsum (h - l + Z.of_nat p + 1) (fun m => let i := (l - Z.of_nat p - 1 + m)%Z in
      c i * ((x - U i) / (U (i + Z.of_nat p + 1)%Z - U i)) * Br U p i x) +
    zsum (h - l + Z.of_nat p + 1) (fun m => let i := (l - Z.of_nat p + m)%Z in
      c (i - 1)%Z * (1 - (x - U i) / (U (i + Z.of_nat p + 1)%Z - U i)) * Br U p i x)).
  - rewrite <- zsum_plus. apply zsum_ext. intros m Hm. cbn zeta. cbn [Br].
    replace (l - Z.of_nat p + m - 1)%Z with (l - Z.of_nat p - 1 + m)%Z by lia.
    replace (l - Z.of_nat p + m)%Z with (l - Z.of_nat p - 1 + m + 1)%Z by lia.
    set (i := (l - Z.of_nat p - 1 + m)%Z).
    replace (i + 1 + Z.of_nat p + 1)%Z with (i + Z.of_nat (S p) + 1)%Z by lia.
    replace (i + Z.of_nat p + 1)%Z with (i + Z.of_nat (S p))%Z by lia.
    pose proof (incr_lt U lo hi i (i + Z.of_nat (S p)) H ltac:(lia) ltac:(lia) ltac:(lia)).
    pose proof (incr_lt U lo hi (i + 1) (i + Z.of_nat (S p) + 1) H ltac:(lia) ltac:(lia) ltac:(lia)).
    field. lra.
  - rewrite (zsum_first (h - l + Z.of_nat p + 1)) by lia. cbn zeta.
    rewrite (Br_outside U lo hi H p (l - Z.of_nat p - 1 + 0)%Z x) by
      (try lia; right; replace (l - Z.of_nat p - 1 + 0 + Z.of_nat p + 1)%Z with l by lia; lra).
    rewrite (zsum_S (h - l + Z.of_nat p)) by lia. cbn zeta.
    rewrite (Br_outside U lo hi H p (l - Z.of_nat p + (h - l + Z.of_nat p))%Z x) by
      (try lia; left; replace (l - Z.of_nat p + (h - l + Z.of_nat p))%Z with h by lia; lra).
    rewrite !Rmult_0_r, Rplus_0_l, Rplus_0_r. replace (h - l + Z.of_nat p + 1 - 1)%Z with (h - l + Z.of_nat p)%Z by lia.
    rewrite <- zsum_plus. apply zsum_ext. intros m Hm. cbn zeta.
    replace (l - Z.of_nat p - 1 + (m + 1))%Z with (l - Z.of_nat p + m)%Z by lia. ring.
Qed.

Lemma partition U lo hi x : incr U lo hi -> forall p l h, (lo <= l - Z.of_nat p)%Z -> (l < h)%Z ->
  (h + Z.of_nat p <= hi)%Z -> U l <= x < U h ->
  zsum (h - l + Z.of_nat p) (fun m => Br U p (l - Z.of_nat p + m) x) = 1.
Proof.
  intros H p. induction p as [|p IH]; intros l h Hl Hlh Hh Hx.
  - replace (h - l + Z.of_nat 0)%Z with (h - l)%Z by lia.
    assert (K : forall k, (0 <= k)%Z -> (l + k <= h)%Z ->
       zsum k (fun m => Br U 0 (l - Z.of_nat 0 + m) x) = if Rlt_dec x (U (l + k)%Z) then 1 else 0).
    { apply (zsum_ind (fun k => (l + k <= h)%Z -> zsum k (fun m => Br U 0 (l - Z.of_nat 0 + m) x) = if Rlt_dec x (U (l + k)%Z) then 1 else 0)).
      - intros _. rewrite zsum_0 by lia. rewrite Z.add_0_r. destruct (Rlt_dec x (U l)); lra.
      - intros k Hk IHk Hkh. rewrite zsum_S by lia. rewrite IHk by lia. cbn [Br].
        replace (l - Z.of_nat 0 + k)%Z with (l + k)%Z by lia. rewrite <- Z.add_assoc.
        pose proof (H (l + k)%Z ltac:(lia)). rewrite <- Z.add_assoc in *.
        destruct (Rlt_dec x (U (l + k)%Z)), (Rlt_dec x (U (l + (k + 1))%Z)); lra. }
    rewrite K by lia. replace (l + (h - l))%Z with h by lia. destruct (Rlt_dec x (U h)); lra.
  - rewrite <- (IH l h) by lia || lra.
    transitivity (zsum (h - l + Z.of_nat p + 1) (fun m => 1 * Br U (S p) (l - Z.of_nat p - 1 + m) x)).
    + replace (h - l + Z.of_nat (S p))%Z with (h - l + Z.of_nat p + 1)%Z by lia. apply zsum_ext. intros m Hm.
      rewrite Rmult_1_l. f_equal. lia.
    + rewrite (sum_step U lo hi p l h x (fun _ => 1) H) by lia || lra. apply zsum_ext. intros m Hm. cbn zeta. ring.
Qed.

Lemma marsden U lo hi x t : incr U lo hi -> forall p l h, (lo <= l - Z.of_nat p)%Z -> (l < h)%Z ->
  (h + Z.of_nat p <= hi)%Z -> U l <= x < U h ->
  zsum (h - l + Z.of_nat p) (fun m => dual U (l - Z.of_nat p + m) t p * Br U p (l - Z.of_nat p + m) x) = (x - t) ^ p.
Proof.
  intros H p. induction p as [|p IH]; intros l h Hl Hlh Hh Hx.
  - cbn [pow]. rewrite <- (partition U lo hi x H 0 l h) by lia || lra. apply zsum_ext. intros m Hm. cbn [dual]. ring.
  - cbn [pow]. rewrite <- (IH l h) by lia || lra. rewrite <- zsum_scal.
    transitivity (zsum (h - l + Z.of_nat p + 1) (fun m => dual U (l - Z.of_nat p - 1 + m) t (S p) * Br U (S p) (l - Z.of_nat p - 1 + m) x)).
    + replace (h - l + Z.of_nat (S p))%Z with (h - l + Z.of_nat p + 1)%Z by lia. apply zsum_ext. intros m Hm.
      replace (l - Z.of_nat (S p) + m)%Z with (l - Z.of_nat p - 1 + m)%Z by lia. reflexivity.
    + rewrite (sum_step U lo hi p l h x (fun i => dual U i t (S p)) H) by lia || lra.
      apply zsum_ext. intros m Hm. cbn zeta. set (i := (l - Z.of_nat p + m)%Z).
      pose proof (incr_lt U lo hi i (i + Z.of_nat p + 1) H ltac:(lia) ltac:(lia) ltac:(lia)).
      cbn [dual]. replace (i - 1 + Z.of_nat (S p))%Z with (i + Z.of_nat p)%Z by lia.
      rewrite (Rmult_comm (dual U (i - 1) t p)), <- dual_shift.
      replace (i + Z.of_nat (S p))%Z with (i + Z.of_nat p + 1)%Z by lia. field. lra.
Qed.
