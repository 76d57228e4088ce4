(** Rounding errors of spline evaluation: one dimension computed in a rounded arithmetic (C72). *)
From Coq Require Import ZArith List Bool Reals Lia Lra Psatz ZifyBool.
From Coquelicot Require Import Coquelicot.
From Flocq Require Import Core.Raux Core.Generic_fmt.
From Verif Require Import Base BaseFacts SplineModel Spec SpecRound EvalGeneric EvalMaster EvalProps EvalR WeightsR RSum EvalRProps RoundR RoundW.
Import ListNotations.
Open Scope R_scope.

Section Rounded.
Variable N : Num R.
Variable u : R.
Hypothesis HN : rounded N u.
Hypothesis Hu : u <= / 200.
Notation "x ⊕ y" := (@n_add R N x y) (at level 50, left associativity).
Notation "x ⊖ y" := (@n_sub R N x y) (at level 50, left associativity).
Notation "x ⊗ y" := (@n_mul R N x y) (at level 40, left associativity).
Notation "x ⊘ y" := (@n_div R N x y) (at level 40, left associativity).
Notation rel := (rel u).
Notation close := (close N).
Let u0 : 0 <= u := u_pos N u HN.

(** ** The grid parameters and the brackets *)
Definition gpN (g : gdim R) : @gpar R :=
  match g with
  | Unif a b n => PU a b n ((IZR n ⊖ 1) ⊘ (b ⊖ a))
  | Nonunif gc => PN gc (zlen gc) (Some (glo g, ghi g))
  end.
Definition uN (a b : R) (n : Z) (x : R) : R := (x ⊖ a) ⊗ ((IZR n ⊖ 1) ⊘ (b ⊖ a)).
Definition cellN (g : gdim R) (x : R) : Z :=
  match g with
  | Unif a b n => Z.max (Z.min (Zfloor (uN a b n x)) (n - 2)) 0
  | Nonunif gc => cellR g x
  end.
Definition lamN (g : gdim R) (x : R) : R :=
  match g with
  | Unif a b n => uN a b n x ⊖ IZR (cellN g x)
  | Nonunif gc => (x ⊖ gnode g (cellR g x)) ⊘ (gnode g (cellR g x + 1) ⊖ gnode g (cellR g x))
  end.
Definition delN (g : gdim R) (x : R) : R :=
  match g with
  | Unif a b n => (IZR n ⊖ 1) ⊘ (b ⊖ a)
  | Nonunif gc => gnode g (cellR g x + 1) ⊖ gnode g (cellR g x)
  end.
Notation small := (resolved u).

Lemma sub_neq0 x y : y < x -> x ⊖ y <> 0.
Proof.
  intros H. destruct (r_sub N u HN x y) as (e & He & ->). apply Rabs_le_between in He.
  apply Rmult_integral_contrapositive. split; lra.
Qed.
Lemma ofZ_le z n : (0 <= z <= n)%Z -> IZR n * u <= / 200 -> @n_ofZ R N z = IZR z.
Proof.
  intros Hz Hn. apply (r_int N u HN). rewrite Rabs_right by (apply IZR_ge; lia).
  assert (IZR z <= IZR n) by (apply IZR_le; lia). nra.
Qed.
Lemma recoverN_N g : valid_dim g -> small g -> @recoverN R N g = Ok (gpN g).
Proof.
  intros H Hs. destruct g as [a b n|gc]; cbn [recoverN gpN].
  - destruct H as [Hn H]; cbn in Hn, H, Hs. rewrite (ofZ_le n n), (ofZ_le 1 n) by (auto; lia).
    rewrite (divE_N N u HN) by (now apply sub_neq0). reflexivity.
  - destruct H as [H _]. cbn in H. rewrite (lget_ok gc 0 0) by lia. rewrite (lget_ok gc _ 0) by lia. reflexivity.
Qed.
Lemma searchsorted_N gc x : @searchsorted R N gc x = @searchsorted R NumR gc x.
Proof. induction gc as [|g gc IH]; cbn [searchsorted]; auto. rewrite IH, (ltb_R N u HN). reflexivity. Qed.
Lemma cellN_range g x : valid_dim g -> (0 <= cellN g x <= gsize g - 2)%Z.
Proof. intros H. destruct g; [|now apply cellR_range]. destruct H as [H _]. cbn -[Z.max Z.min] in *. lia. Qed.
Lemma bracket_N g x : valid_dim g -> small g -> @bracket R N (gpN g) x = Ok (cellN g x, lamN g x, delN g x).
Proof.
  intros H Hs. pose proof (cellN_range g x H) as Hc. destruct g as [a b n|gc]; cbn [bracket gpN].
  - rewrite (floor_R N u HN). fold (uN a b n x). cbn -[Z.max Z.min] in Hc, Hs. rewrite (ofZ_le _ n) by (auto; lia). reflexivity.
  - pose proof (cell_gap (Nonunif gc) x H) as Hgap. rewrite searchsorted_N.
    cbn -[Z.max Z.min] in Hgap, Hc. rewrite (lget_ok gc _ 0) by lia. cbn [bind].
    rewrite (lget_ok gc _ 0) by lia. cbn [bind]. rewrite (divE_N N u HN). reflexivity. apply sub_neq0. lra.
Qed.

(** ** A uniform dimension *)
Lemma uN_rel a b n x : valid_dim (Unif a b n) -> IZR n * u <= / 200 -> rel 6 (uN a b n x) ((x - a) * ((IZR n - 1) / (b - a))).
Proof.
  intros [Hn H] Hs. cbn in Hn, H. unfold uN.
  pose proof (rel_sub1 N u HN x a) as R1. pose proof (rel_sub1 N u HN (IZR n) 1) as R2. pose proof (rel_sub1 N u HN b a) as R3.
  destruct (rel_div N u HN Hu 1 (IZR n ⊖ 1) (IZR n - 1) (b ⊖ a) (b - a) ltac:(lra) ltac:(lra) R2 R3) as [R4 D].
  unshelve epose proof (rel_trans N u HN Hu _ _ _ _ _ _ _ (rel_div1 N u HN (IZR n ⊖ 1) (b ⊖ a) D) R4) as R5; [lra|lra|].
  unshelve epose proof (rel_mul N u HN Hu _ _ _ _ _ _ _ _ R1 R5) as R6; [lra|lra|].
  unshelve epose proof (rel_trans N u HN Hu _ _ _ _ _ _ _ (rel_mul1 N u HN (x ⊖ a) ((IZR n ⊖ 1) ⊘ (b ⊖ a))) R6) as R7; [lra|lra|].
  eapply (rel_weaken N u HN); [exact R7|lra].
Qed.
Definition err1 (k : Z) (g : gdim R) : R :=
  match g with
  | Unif _ _ n => (if (k =? 1)%Z then 12 else 95) * IZR n * u
  | Nonunif _ => 9 * u
  end.
Lemma close_unif k a b n x : (k = 1 \/ k = 3)%Z -> valid_dim (Unif a b n) -> IZR n * u <= / 200 -> a <= x <= b ->
  close k (Unif a b n) x (cellN (Unif a b n) x, lamN (Unif a b n) x, delN (Unif a b n) x) (err1 k (Unif a b n)).
Proof.
  intros Hk Hg Hs Hx. set (g := Unif a b n) in *. pose proof (unif_step a b n Hg) as Hst. fold (hstep a b n) in Hst. set (h := hstep a b n) in *.
  assert (Hn : 2 <= IZR n) by (destruct Hg as [Hn _]; cbn in Hn; now apply IZR_le).
  assert (Hab : a < b) by (destruct Hg as [_ Hg]; exact Hg).
  set (U := (x - a) * ((IZR n - 1) / (b - a))). set (v := uN a b n x). pose proof (uN_rel a b n x Hg Hs) as HR. fold U v in HR.
  assert (HU : 0 <= U <= IZR n - 1).
  { assert (Q : 0 < (IZR n - 1) / (b - a)) by (apply Rdiv_lt_0_compat; lra). unfold U. split; [apply Rmult_le_pos; lra|].
    apply Rle_trans with ((b - a) * ((IZR n - 1) / (b - a))); [apply Rmult_le_compat_r; lra|]. apply Req_le. field. lra. }
  assert (HUh : U * h = x - a) by (unfold U, h, hstep; field; lra).
  pose proof (rel_abs u _ _ _ HR) as HA. rewrite (Rabs_right U) in HA by lra.
  assert (HD : 6 * u * U <= 6 * u * (IZR n - 1)) by (apply Rmult_le_compat_l; lra).
  assert (Hv : 0 <= v).
  { destruct HR as (e & He & ->). apply Rabs_le_between in He. apply Rmult_le_pos; lra. }
  assert (Hv2 : v <= IZR n - 1 + 0.03) by (apply Rabs_le_between in HA; nra).
  set (y := a + v * h).
  assert (Ey : (y - a) * ((IZR n - 1) / (b - a)) = v) by (unfold y, h, hstep; field; lra).
  assert (Ec : cellR g y = cellN g x) by (unfold g; cbn -[Z.max Z.min]; now rewrite Ey).
  assert (Ha : admissible g (cellN g x) y) by (rewrite <- Ec; now apply cellR_admissible).
  pose proof (cellN_range g x Hg) as Hc. set (c := cellN g x) in *.
  assert (El : lamC g c y = v - IZR c).
  { unfold lamC, g, y. cbn [gnode]. rewrite plus_IZR. fold (hstep a b n). fold h. field. lra. }
  assert (Hl : 0 <= v - IZR c <= 1.03).
  { unfold c, g in *. cbn -[Z.max Z.min] in *. fold v in Hc |- *.
    assert (F0 : (0 <= Zfloor v)%Z) by (apply Zfloor_lub; lra).
    pose proof (Zfloor_lb v) as F1. pose proof (Zfloor_ub v) as F2.
    destruct (Z_le_gt_dec (Zfloor v) (n - 2)) as [L|L].
    - replace (Z.max (Z.min (Zfloor v) (n - 2)) 0) with (Zfloor v) by lia. lra.
    - replace (Z.max (Z.min (Zfloor v) (n - 2)) 0) with (n - 2)%Z by lia.
      assert (IZR (n - 1) <= IZR (Zfloor v)) as Q by (apply IZR_le; lia). rewrite minus_IZR in *. lra. }
  destruct (r_sub N u HN v (IZR c)) as (e & He & Ee).
  assert (Elam : lamN g x = (v - IZR c) * (1 + e)) by exact Ee.
  assert (HL1 : Rabs (lamN g x - lamC g c y) <= 1.03 * u).
  { rewrite El, Elam. replace ((v - IZR c) * (1 + e) - (v - IZR c)) with ((v - IZR c) * e) by ring. rewrite Rabs_mult, (Rabs_right (v - IZR c)) by lra.
    apply Rmult_le_compat; auto using Rabs_pos; lra. }
  assert (HL0 : 0 <= lamN g x <= 1.1).
  { rewrite Elam. apply Rabs_le_between in He. split; [apply Rmult_le_pos; lra|]. nra. }
  eapply (close_weaken N); [lia| |].
  - apply (close_intro N u HN Hu k g x y c (lamN g x) (delN g x) (1.03 * u) (IZR (k + 1) * (6 * u * (IZR n - 1)))); auto.
    intros f M Hf. pose proof (wsum_lip k a b n f M x y Hk Hg Hf) as W. fold g h in W.
    assert (0 <= M). { specialize (Hf 0%Z). pose proof (Rabs_pos (f 0%Z)). assert (0 <= 0 < csize k g)%Z as Q; [unfold csize; destruct Hg; lia|]. specialize (Hf Q). lra. }
    eapply Rle_trans; [exact W|].
    assert (E : Rabs (y - x) = h * Rabs (v - U)).
    { replace (y - x) with (h * (v - U)); [|unfold y; rewrite Rmult_minus_distr_l, (Rmult_comm h U), HUh; ring]. rewrite Rabs_mult, (Rabs_right h); lra. }
    rewrite E. replace (IZR (k + 1) * M / h * (h * Rabs (v - U))) with (IZR (k + 1) * M * Rabs (v - U)) by (field; lra).
    assert (0 <= IZR (k + 1)) by (apply IZR_le; lia).
    assert (HM : IZR (k + 1) * M * Rabs (v - U) <= IZR (k + 1) * M * (6 * u * (IZR n - 1))) by (apply Rmult_le_compat_l; [apply Rmult_le_pos; lra|lra]).
    lra.
  - unfold err1, g, Bk. destruct Hk as [-> | ->]; cbn [Z.eqb Pos.eqb Z.add Pos.add Pos.succ]; nra.
Qed.
Lemma close_nonunif gc x : valid_dim (Nonunif gc) -> in_dim (Nonunif gc) x ->
  close 1 (Nonunif gc) x (cellN (Nonunif gc) x, lamN (Nonunif gc) x, delN (Nonunif gc) x) (err1 1 (Nonunif gc)).
Proof.
  intros Hg Hx. set (g := Nonunif gc) in *. pose proof (cell_gap g x Hg) as Hgap.
  set (c := cellR g x) in *. set (g0 := gnode g c) in *. set (g1 := gnode g (c + 1)) in *.
  pose proof (rel_sub1 N u HN x g0) as R1. pose proof (rel_sub1 N u HN g1 g0) as R2.
  destruct (rel_div N u HN Hu 1 (x ⊖ g0) (x - g0) (g1 ⊖ g0) (g1 - g0) ltac:(lra) ltac:(lra) R1 R2) as [R3 D].
  unshelve epose proof (rel_trans N u HN Hu _ _ _ _ _ _ _ (rel_div1 N u HN (x ⊖ g0) (g1 ⊖ g0) D) R3) as R4; [lra|lra|].
  apply (rel_weaken N u HN _ 3.05) in R4; [|lra].
  change ((x ⊖ g0) ⊘ (g1 ⊖ g0)) with (lamN g x) in R4. change ((x - g0) / (g1 - g0)) with (lamR g x) in R4.
  pose proof (lam_ge0 g x Hg (proj1 Hx)) as L0. pose proof (lam_le1 g x Hg (proj2 Hx)) as L1.
  pose proof (rel_abs u _ _ _ R4) as HA. rewrite (Rabs_right (lamR g x)) in HA by lra.
  assert (HA' : Rabs (lamN g x - lamR g x) <= 3.05 * u) by nra.
  eapply (close_weaken N); [lia| |].
  - apply (close_intro N u HN Hu 1 g x x c (lamN g x) (delN g x) (3.05 * u) 0); auto.
    + apply cellR_admissible; auto.
    + destruct R4 as (e & He & E). rewrite E. apply Rabs_le_between in He. split; [apply Rmult_le_pos; lra|nra].
    + intros f M Hf. unfold Rminus. rewrite Rplus_opp_r, Rabs_R0. lra.
  - unfold err1, g, Bk. cbn [Z.eqb Pos.eqb Z.add Pos.add Pos.succ]. lra.
Qed.
Lemma close_dim k g x : (k = 1 \/ k = 3 /\ exists a b n, g = Unif a b n)%Z -> valid_dim g -> small g -> in_dim g x ->
  close k g x (cellN g x, lamN g x, delN g x) (err1 k g).
Proof.
  intros Hk Hg Hs Hx. destruct g as [a b n|gc].
  - apply close_unif; auto; [tauto|]. destruct Hx as [X1 X2]. rewrite glo_unif in X1. rewrite (ghi_unif _ _ _ Hg) in X2. lra.
  - destruct Hk as [->|[_ (a & b & n & E)]]; [|discriminate]. now apply close_nonunif.
Qed.
End Rounded.
