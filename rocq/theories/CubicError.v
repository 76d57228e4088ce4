(** Stability and error bounds of cubic splines, over the reals (C68, C69). *)
From Coq Require Import ZArith List Bool Reals Lia Lra Psatz ZifyBool.
From Coquelicot Require Import Coquelicot.
From Verif Require Import Base BaseFacts SplineModel Spec SpecError PrefilterModel EvalProps EvalValue EvalR WeightsR RSum EvalExact EvalRProps EvalCases
  PrefilterGeneric PrefilterPass SolverR PrefilterR PrefilterProps ErrorR.
Import ListNotations.
Open Scope R_scope.

(** ** Diagonally dominant systems *)
(** [zmax n f] is an index where |f| is largest among 0..n-1. *)
Lemma argmax (f : Z -> R) n : (1 <= n)%Z -> exists k, (0 <= k < n)%Z /\ forall i, (0 <= i < n)%Z -> Rabs (f i) <= Rabs (f k).
Proof.
  intros Hn. replace n with ((n - 1) + 1)%Z by lia. generalize (n - 1)%Z (ltac:(lia) : (0 <= n - 1)%Z).
  apply zsum_ind.
  - exists 0%Z. split; [lia|]. intros i Hi. replace i with 0%Z by lia. lra.
  - intros m Hm [k [Hk H]]. destruct (Rle_dec (Rabs (f k)) (Rabs (f (m + 1)%Z))) as [L|L].
    + exists (m + 1)%Z. split; [lia|]. intros i Hi. destruct (Z.eq_dec i (m + 1)); [subst; lra|].
      specialize (H i ltac:(lia)). lra.
    + exists k. split; [lia|]. intros i Hi. destruct (Z.eq_dec i (m + 1)); [subst; lra|]. apply H. lia.
Qed.

(** d_0 = d_{n-1} = 0 and |d_{i-1} + 4 d_i + d_{i+1}|/6 <= t: |d_i| <= 3 t. *)
Lemma dominant n (d : Z -> R) t : (1 <= n)%Z -> 0 <= t -> d 0%Z = 0 -> d (n - 1)%Z = 0 ->
  (forall i, (1 <= i <= n - 2)%Z -> Rabs ((d (i - 1)%Z + 4 * d i + d (i + 1)%Z) / 6) <= t) ->
  forall i, (0 <= i < n)%Z -> Rabs (d i) <= 3 * t.
Proof.
  intros Hn Ht H0 H1 H i Hi. destruct (argmax d n Hn) as [k [Hk A]].
  apply (Rle_trans _ _ _ (A i Hi)).
  destruct (Z.eq_dec k 0) as [->|K0]; [rewrite H0, Rabs_R0; lra|].
  destruct (Z.eq_dec k (n - 1)) as [->|K1]; [rewrite H1, Rabs_R0; lra|].
  specialize (H k ltac:(lia)). pose proof (A (k - 1)%Z ltac:(lia)) as B1. pose proof (A (k + 1)%Z ltac:(lia)) as B2.
  apply Rabs_le_between in H, B1, B2. revert H B1 B2. unfold Rabs. destruct (Rcase_abs (d k)); lra.
Qed.

(** ** One dimension *)
Definition curv (W : Z -> R) (i : Z) : R := W i - 2 * W (i + 1)%Z + W (i + 2)%Z.

(** A cubic piece: the chord minus a term in the second differences of the coefficients. *)
Lemma piece_chord W c t :
  bsp 0 t * W c + bsp 1 t * W (c + 1)%Z + bsp 2 t * W (c + 2)%Z + bsp 3 t * W (c + 3)%Z =
  (1 - t) * ((W c + 4 * W (c + 1)%Z + W (c + 2)%Z) / 6) + t * ((W (c + 1)%Z + 4 * W (c + 2)%Z + W (c + 3)%Z) / 6)
  - t * (1 - t) / 6 * ((2 - t) * curv W c + (1 + t) * curv W (c + 1)).
Proof.
  unfold curv. replace (c + 1 + 1)%Z with (c + 2)%Z by lia. replace (c + 1 + 2)%Z with (c + 3)%Z by lia.
  cbn. field.
Qed.

Lemma curv_eq n y W i : natural n y W -> (1 <= i <= n - 2)%Z ->
  (curv W (i - 1) + 4 * curv W i + curv W (i + 1)) / 6 = y (i - 1)%Z - 2 * y i + y (i + 1)%Z.
Proof.
  intros [H _] Hi. rewrite <- !H by lia. unfold curv.
  replace (i - 1 + 1)%Z with i by lia. replace (i - 1 + 2)%Z with (i + 1)%Z by lia.
  replace (i + 1 + 1)%Z with (i + 2)%Z by lia. replace (i + 1 + 2)%Z with (i + 3)%Z by lia. field.
Qed.
Lemma curv_ends n y W : natural n y W -> (1 <= n)%Z -> curv W 0 = 0 /\ curv W (n - 1) = 0.
Proof.
  intros (_ & A & B) Hn. unfold curv. replace (n - 1 + 1)%Z with n by lia. replace (n - 1 + 2)%Z with (n + 1)%Z by lia.
  cbn in *. auto.
Qed.

Lemma curv_bound n y W t : natural n y W -> (1 <= n)%Z -> 0 <= t ->
  (forall i, (1 <= i <= n - 2)%Z -> Rabs (y (i - 1)%Z - 2 * y i + y (i + 1)%Z) <= t) ->
  forall i, (0 <= i < n)%Z -> Rabs (curv W i) <= 3 * t.
Proof.
  intros H Hn Ht Hy. destruct (curv_ends n y W H Hn) as [A B].
  apply dominant; auto. intros i Hi. rewrite (curv_eq n y) by auto. auto.
Qed.

(** Evaluation in one dimension, with the coefficients of the natural spline through [y]. *)
Section One.
Variables (a b : R) (n : Z).
Let g := Unif a b n.
Hypothesis Hg : valid_dim g.
Let h := (b - a) / (IZR n - 1).

Lemma step_h : step g = h.
Proof. unfold step, g. rewrite glo_unif, ghi_unif by exact Hg. reflexivity. Qed.

Lemma own_cell x : in_dim g x -> let c := cellR g x in (0 <= c /\ c + 1 <= n - 1)%Z /\ gnode g c <= x <= gnode g (c + 1).
Proof.
  intros Hx c. pose proof (cellR_range g x Hg) as Hc. cbn [gsize g] in Hc. split; [subst c; lia|].
  pose proof (lam_inside a b n Hg x Hx) as L. fold g c in L.
  pose proof (cell_gap g x Hg) as G. fold c in G. unfold lamC in L.
  assert (E : x - gnode g c = (x - gnode g c) / (gnode g (c + 1) - gnode g c) * (gnode g (c + 1) - gnode g c)) by (field; lra).
  split; nra.
Qed.

Lemma node_step c : gnode g (c + 1) - gnode g c = h.
Proof. unfold g. rewrite !gnode_unif, plus_IZR. unfold h. ring. Qed.
Lemma hpos1 : 0 < h. Proof. exact (hpos a b n Hg). Qed.

Lemma cub_chord y W c x : natural n y W -> (0 <= c /\ c + 1 <= n - 1)%Z ->
  let t := lamC g c x in
  cub a b n W bsp c x = (1 - t) * y c + t * y (c + 1)%Z - t * (1 - t) / 6 * ((2 - t) * curv W c + (1 + t) * curv W (c + 1)).
Proof.
  intros [N _] Hc t. unfold cub. fold g t. rewrite piece_chord, <- !N by lia.
  replace (c + 1 + 1)%Z with (c + 2)%Z by lia. replace (c + 1 + 2)%Z with (c + 3)%Z by lia. reflexivity.
Qed.
Lemma cub_curv W c x : cub a b n W ddbsp c x = (1 - lamC g c x) * curv W c + lamC g c x * curv W (c + 1).
Proof.
  unfold cub, curv. fold g. replace (c + 1 + 1)%Z with (c + 2)%Z by lia. replace (c + 1 + 2)%Z with (c + 3)%Z by lia. cbn. ring.
Qed.

(** |y_i| <= eps: the spline is at most 5/2 eps. *)
Lemma stable1 y W eps x : natural n y W -> in_dim g x -> (forall i, (0 <= i < n)%Z -> Rabs (y i) <= eps) ->
  Rabs (wsum 3 0 g W x) <= 5 / 2 * eps.
Proof.
  intros N Hx Hy. pose proof (proj1 Hg) as Hn. cbn [gsize g] in Hn.
  destruct (own_cell x Hx) as [Hc Hxc]. set (c := cellR g x) in *.
  assert (L : 0 <= lamC g c x <= 1) by (apply lamC_in; auto).
  assert (He : 0 <= eps) by (pose proof (Hy 0%Z ltac:(lia)); pose proof (Rabs_pos (y 0%Z)); lra).
  assert (B : forall i, (0 <= i < n)%Z -> Rabs (curv W i) <= 3 * (4 * eps)).
  { apply (curv_bound n y); auto; try lia; try lra. intros i Hi.
    pose proof (Hy (i - 1)%Z ltac:(lia)) as A1. pose proof (Hy i ltac:(lia)) as A2. pose proof (Hy (i + 1)%Z ltac:(lia)) as A3.
    apply Rabs_le_between in A1, A2, A3. apply Rabs_le. lra. }
  unfold g. rewrite wsum_cub by auto. unfold cubG. fold g c. rewrite (cub_chord y) by auto.
  pose proof (Hy c ltac:(lia)) as Y0. pose proof (Hy (c + 1)%Z ltac:(lia)) as Y1.
  pose proof (B c ltac:(lia)) as B0. pose proof (B (c + 1)%Z ltac:(lia)) as B1.
  set (t := lamC g c x) in *. cbv zeta. set (d0 := curv W c) in *. set (d1 := curv W (c + 1)) in *.
  apply Rabs_le_between in Y0, Y1, B0, B1.
  clearbody t d0 d1. clear - L He Y0 Y1 B0 B1.
  assert (T : 0 <= t * (1 - t) <= 1 / 4) by (pose proof (pow2_ge_0 (t - 1 / 2)); split; nra).
  assert (Q : - (36 * eps) <= (2 - t) * d0 + (1 + t) * d1 <= 36 * eps) by (split; nra).
  set (q := (2 - t) * d0 + (1 + t) * d1) in *. set (w := t * (1 - t)) in *. clearbody q w.
  assert (Q2 : - (3 / 2 * eps) <= w / 6 * q <= 3 / 2 * eps) by (split; nra).
  assert (Q3 : - eps <= (1 - t) * y c + t * y (c + 1)%Z <= eps) by (split; nra).
  apply Rabs_le. lra.
Qed.

(** Second differences of a function of bounded curvature. *)
Lemma second_diff f M i : curvature_within g M f -> (1 <= i <= n - 2)%Z ->
  Rabs (f (gnode g (i - 1)) - 2 * f (gnode g i) + f (gnode g (i + 1))) <= M * h ^ 2.
Proof.
  intros (f1 & f2 & F) Hi. pose proof hpos1 as Hh.
  set (p := gnode g (i - 1)). set (q := gnode g (i + 1)).
  assert (Hp : gnode g i - p = h) by (unfold p; pose proof (node_step (i - 1)) as E; now replace (i - 1 + 1)%Z with i in E by lia).
  assert (Hq : q - gnode g i = h) by (unfold q; apply node_step).
  assert (Dp : in_dim g p) by (apply gnode_in_dim; auto; cbn; lia).
  assert (Dq : in_dim g q) by (apply gnode_in_dim; auto; cbn; lia).
  pose proof (chord8 (fun t => f t - (f p + (t - p) * ((f q - f p) / (2 * h)))) (fun t => f1 t - (f q - f p) / (2 * h)) (fun t => f2 t - 0)
    p q M (gnode g i)) as B. cbn beta in B.
  assert (E : f (gnode g i) - (f p + (gnode g i - p) * ((f q - f p) / (2 * h))) = - (f p - 2 * f (gnode g i) + f q) / 2).
  { rewrite Hp. field. lra. }
  rewrite E in B.
  assert (B' : Rabs (- (f p - 2 * f (gnode g i) + f q) / 2) <= M * (q - p) ^ 2 / 8).
  { apply B; try lra.
    - replace (q - p) with (2 * h) by lra. field. lra.
    - intros t Ht. assert (Dt : in_dim g t) by (unfold in_dim in *; lra). destruct (F t Dt) as (A1 & A2 & A3). split; [|split].
      + apply dlim_minus; auto. apply is_derive_Reals. auto_derive; auto. field. lra.
      + apply dlim_minus; auto. apply derivable_pt_lim_const.
      + now rewrite Rminus_0_r. }
  replace (q - p) with (2 * h) in B' by lra. apply Rabs_le_between in B'. apply Rabs_le. lra.
Qed.

(** The error e = s - f in the cell of x: it is zero at both ends; its second derivative. *)
Section Cell.
Variables (f f1 f2 : R -> R) (y W : Z -> R) (c : Z).
Hypothesis N : natural n y W.
Hypothesis Hc : (0 <= c /\ c + 1 <= n - 1)%Z.
Hypothesis Hy : forall i, (0 <= i < n)%Z -> y i = f (gnode g i).
Let e t := cub a b n W bsp c t - f t.
Let e1 t := / h * cub a b n W dbsp c t - f1 t.
Let e2 t := / h * (/ h * cub a b n W ddbsp c t) - f2 t.

Lemma cell_zero : e (gnode g c) = 0 /\ e (gnode g (c + 1)) = 0.
Proof.
  unfold e. rewrite !(cub_chord y) by auto. cbv zeta. rewrite lamC_self, lamC_next by (auto; cbn; lia). rewrite !Hy by lia. split; field.
Qed.
Lemma cell_dim t : gnode g c <= t <= gnode g (c + 1) -> in_dim g t.
Proof.
  intros Ht. pose proof (gnode_in_dim g c Hg ltac:(cbn; lia)). pose proof (gnode_in_dim g (c + 1) Hg ltac:(cbn; lia)).
  unfold in_dim in *. lra.
Qed.
Lemma cell_derive t : derivable_pt_lim f t (f1 t) -> derivable_pt_lim f1 t (f2 t) ->
  derivable_pt_lim e t (e1 t) /\ derivable_pt_lim e1 t (e2 t).
Proof.
  intros A B. split; apply dlim_minus; auto; apply is_derive_Reals.
  - apply (cub_derive a b n W Hg bsp dbsp). apply bsp_derive.
  - apply is_derive_scal. apply (cub_derive a b n W Hg dbsp ddbsp). apply dbsp_derive.
Qed.

Lemma cell_error K x : gnode g c <= x <= gnode g (c + 1) ->
  (forall t, gnode g c <= t <= gnode g (c + 1) ->
     derivable_pt_lim f t (f1 t) /\ derivable_pt_lim f1 t (f2 t) /\ Rabs (e2 t) <= K) ->
  Rabs (e x) <= K * h ^ 2 / 8 /\ Rabs (e1 x) <= K * h.
Proof.
  intros Hx H. pose proof hpos1 as Hh. destruct cell_zero as [Z0 Z1].
  assert (D : forall t, gnode g c <= t <= gnode g (c + 1) -> derivable_pt_lim e t (e1 t) /\ derivable_pt_lim e1 t (e2 t) /\ Rabs (e2 t) <= K).
  { intros t Ht. destruct (H t Ht) as (A & B & C). destruct (cell_derive t A B). auto. }
  split.
  - rewrite <- (node_step c). now apply (chord8 e e1 e2).
  - pose proof (node_step c) as S.
    assert (HK : 0 <= K) by (destruct (D x Hx) as (_ & _ & B); pose proof (Rabs_pos (e2 x)); lra).
    destruct (mvt e e1 (gnode g c) (gnode g (c + 1))) as [u [Hu Eu]]; [lra|intros; apply D; lra|].
    assert (U0 : e1 u = 0) by (assert (Q : e1 u * (gnode g (c + 1) - gnode g c) = 0) by lra; destruct (Rmult_integral _ _ Q); lra).
    assert (T : forall p q, gnode g c <= p -> p < q -> q <= gnode g (c + 1) -> Rabs (e1 q - e1 p) <= K * h).
    { intros p q Hp Hpq Hq. destruct (mvt e1 e2 p q Hpq) as [v [Hv Ev]]; [intros; apply D; lra|].
      rewrite Ev, Rabs_mult, (Rabs_right (q - p)) by lra. destruct (D v ltac:(lra)) as (_ & _ & B).
      apply Rmult_le_compat; auto using Rabs_pos; lra. }
    destruct (Rtotal_order x u) as [L|[->|L]].
    + pose proof (T x u ltac:(lra) L ltac:(lra)) as B. rewrite U0, Rminus_0_l, Rabs_Ropp in B. auto.
    + rewrite U0, Rabs_R0. nra.
    + pose proof (T u x ltac:(lra) L ltac:(lra)) as B. rewrite U0, Rminus_0_r in B. auto.
Qed.
End Cell.

Lemma error2 f M y W x : natural n y W -> curvature_within g M f -> (forall i, (0 <= i < n)%Z -> y i = f (gnode g i)) -> in_dim g x ->
  Rabs (wsum 3 0 g W x - f x) <= 1 / 2 * M * h ^ 2 /\
  forall l, derivable_pt_lim f x l -> Rabs (wsum 3 1 g W x - l) <= 4 * M * h.
Proof.
  intros N (f1 & f2 & F) Hy Hx. pose proof (proj1 Hg) as Hn. cbn [gsize g] in Hn. pose proof hpos1 as Hh.
  destruct (own_cell x Hx) as [Hc Hxc]. set (c := cellR g x) in *.
  assert (HM : 0 <= M) by (destruct (F x Hx) as (_ & _ & B); pose proof (Rabs_pos (f2 x)); lra).
  assert (B : forall i, (0 <= i < n)%Z -> Rabs (curv W i) <= 3 * (M * h ^ 2)).
  { apply (curv_bound n y); auto; try lia.
    - apply Rmult_le_pos; auto. apply pow2_ge_0.
    - intros i Hi. rewrite !Hy by lia. apply second_diff; auto. exists f1, f2. exact F. }
  destruct (cell_error f f1 f2 y W c N Hc Hy (4 * M) x Hxc) as [A1 A2].
  { intros t Ht. assert (Dt : in_dim g t) by (now apply (cell_dim c)). destruct (F t Dt) as (T1 & T2 & T3). split; auto. split; auto.
    rewrite cub_curv. assert (L : 0 <= lamC g c t <= 1) by (apply lamC_in; auto).
    pose proof (B c ltac:(lia)) as B0. pose proof (B (c + 1)%Z ltac:(lia)) as B1. set (la := lamC g c t) in *.
    apply Rabs_le_between in B0, B1, T3.
    assert (Q : - (3 * (M * h ^ 2)) <= (1 - la) * curv W c + la * curv W (c + 1) <= 3 * (M * h ^ 2)) by nra.
    set (q := (1 - la) * curv W c + la * curv W (c + 1)) in *.
    assert (Q2 : - (3 * M) <= / h * (/ h * q) <= 3 * M).
    { replace (/ h * (/ h * q)) with (q / h ^ 2) by (field; lra). assert (0 < h ^ 2) by nra. split.
      - apply Rle_div_r; lra. - apply Rle_div_l; lra. }
    apply Rabs_le. lra. }
  unfold g. rewrite wsum_cub, wsum_dcub by auto. unfold cubG. fold g c. split.
  - replace (1 / 2 * M * h ^ 2) with (4 * M * h ^ 2 / 8) by field. exact A1.
  - intros l Hl. replace l with (f1 x); [exact A2|]. destruct (F x Hx) as (T1 & _). exact (uniqueness_limite f x _ _ T1 Hl).
Qed.

(** Fourth order. *)
Lemma growth (u u1 P P1 : R -> R) t0 : 0 <= t0 -> u 0 = 0 -> P 0 = 0 ->
  (forall t, 0 <= t <= t0 -> derivable_pt_lim u t (u1 t) /\ derivable_pt_lim P t (P1 t) /\ Rabs (u1 t) <= P1 t) ->
  forall t, 0 <= t <= t0 -> Rabs (u t) <= P t.
Proof.
  intros H0 U0 P0 H t Ht. destruct (Req_dec t 0) as [->|Nt]. { rewrite U0, Rabs_R0, P0. lra. }
  destruct (mvt (fun s => P s - u s) (fun s => P1 s - u1 s) 0 t) as [v [Hv Ev]]; [lra| |].
  { intros x Hx. apply dlim_minus; apply H; lra. }
  destruct (mvt (fun s => P s - (0 - u s)) (fun s => P1 s - (0 - u1 s)) 0 t) as [w [Hw Ew]]; [lra| |].
  { intros x Hx. apply dlim_minus; [apply H; lra|]. apply (dlim_minus (fun _ => 0)); [apply derivable_pt_lim_const|apply H; lra]. }
  rewrite U0, P0 in *. destruct (H v) as (_ & _ & B1); [lra|]. destruct (H w) as (_ & _ & B2); [lra|].
  apply Rabs_le_between in B1, B2.
  assert (0 <= (P1 v - u1 v) * (t - 0)) by (apply Rmult_le_pos; lra).
  assert (0 <= (P1 w - (0 - u1 w)) * (t - 0)) by (apply Rmult_le_pos; lra).
  apply Rabs_le. lra.
Qed.

Lemma dlim_shift f l x t s : derivable_pt_lim f (x + s * t) l -> derivable_pt_lim (fun t => f (x + s * t)) t (s * l).
Proof.
  intros H. rewrite Rmult_comm. apply (derivable_pt_lim_comp (fun t => x + s * t) f); auto.
  apply is_derive_Reals. auto_derive; auto. ring.
Qed.

Section Four.
Variables (f f1 f2 f3 f4 : R -> R) (M : R).
Hypothesis F : forall x, in_dim g x ->
  derivable_pt_lim f x (f1 x) /\ derivable_pt_lim f1 x (f2 x) /\ derivable_pt_lim f2 x (f3 x) /\ derivable_pt_lim f3 x (f4 x) /\ Rabs (f4 x) <= M.

(** f(x+t) + f(x-t) - 2 f(x) = t^2 f''(x) + O(M t^4/12) and the same of f''. *)
Lemma symmetric x t0 : 0 <= t0 -> in_dim g (x - t0) -> in_dim g (x + t0) ->
  Rabs (f2 (x + t0) + f2 (x - t0) - 2 * f2 x) <= M * t0 ^ 2 /\
  Rabs (f (x + t0) + f (x - t0) - 2 * f x - t0 ^ 2 * f2 x) <= M * t0 ^ 4 / 12.
Proof.
  intros H0 Dm Dp.
  assert (D : forall t, 0 <= t <= t0 -> in_dim g (x + 1 * t) /\ in_dim g (x + -1 * t)) by (intros t Ht; unfold in_dim in *; lra).
  assert (S : forall u u' K t, derivable_pt_lim (fun t => u (x + 1 * t)) t (1 * u' (x + 1 * t)) -> derivable_pt_lim (fun t => u (x + -1 * t)) t (-1 * u' (x + -1 * t)) ->
     derivable_pt_lim (fun t => u (x + 1 * t) + u (x + -1 * t) - K) t (u' (x + 1 * t) - u' (x + -1 * t)) /\
     derivable_pt_lim (fun t => u (x + 1 * t) - u (x + -1 * t)) t (u' (x + 1 * t) + u' (x + -1 * t))).
  { intros u u' K t A B. split.
    - replace (u' (x + 1 * t) - u' (x + -1 * t)) with ((1 * u' (x + 1 * t) + -1 * u' (x + -1 * t)) - 0) by ring.
      apply dlim_minus; [|apply derivable_pt_lim_const].
      apply (derivable_pt_lim_plus (fun t => u (x + 1 * t)) (fun t => u (x + -1 * t))); auto.
    - replace (u' (x + 1 * t) + u' (x + -1 * t)) with (1 * u' (x + 1 * t) - -1 * u' (x + -1 * t)) by ring.
      apply (dlim_minus (fun t => u (x + 1 * t)) (fun t => u (x + -1 * t))); auto. }
  assert (G3 : forall t, 0 <= t <= t0 -> Rabs (f3 (x + 1 * t) - f3 (x + -1 * t)) <= 2 * M * t).
  { apply (growth _ (fun t => f4 (x + 1 * t) + f4 (x + -1 * t)) _ (fun _ => 2 * M)); auto; try (rewrite ?Rmult_0_r; ring).
    intros t Ht. destruct (D t Ht) as [D1 D2]. destruct (F _ D1) as (_ & _ & _ & A4 & A5). destruct (F _ D2) as (_ & _ & _ & B4 & B5).
    split; [|split].
    - apply (S f3 f4 0); apply dlim_shift; auto.
    - apply is_derive_Reals. auto_derive; auto. ring.
    - apply Rabs_le_between in A5, B5. apply Rabs_le. lra. }
  assert (G2 : forall t, 0 <= t <= t0 -> Rabs (f2 (x + 1 * t) + f2 (x + -1 * t) - 2 * f2 x) <= M * t ^ 2).
  { apply (growth _ (fun t => f3 (x + 1 * t) - f3 (x + -1 * t)) _ (fun t => 2 * M * t)); auto; try (rewrite ?Rmult_0_r, ?Rplus_0_r; ring).
    intros t Ht. destruct (D t Ht) as [D1 D2]. destruct (F _ D1) as (_ & _ & A3 & _). destruct (F _ D2) as (_ & _ & B3 & _).
    split; [|split].
    - apply (S f2 f3); apply dlim_shift; auto.
    - apply is_derive_Reals. auto_derive; auto. ring.
    - apply G3; auto. }
  assert (G1 : forall t, 0 <= t <= t0 -> Rabs (f1 (x + 1 * t) - f1 (x + -1 * t) - 2 * t * f2 x) <= M * t ^ 3 / 3).
  { apply (growth _ (fun t => f2 (x + 1 * t) + f2 (x + -1 * t) - 2 * f2 x) _ (fun t => M * t ^ 2)); auto; try (rewrite ?Rmult_0_r, ?Rplus_0_r; field).
    intros t Ht. destruct (D t Ht) as [D1 D2]. destruct (F _ D1) as (_ & A2 & _). destruct (F _ D2) as (_ & B2 & _).
    split; [|split].
    - apply dlim_minus; [apply (S f1 f2 0); apply dlim_shift; auto|]. apply is_derive_Reals. auto_derive; auto. ring.
    - apply is_derive_Reals. auto_derive; auto. field.
    - apply G2; auto. }
  assert (G0 : forall t, 0 <= t <= t0 -> Rabs (f (x + 1 * t) + f (x + -1 * t) - 2 * f x - t ^ 2 * f2 x) <= M * t ^ 4 / 12).
  { apply (growth _ (fun t => f1 (x + 1 * t) - f1 (x + -1 * t) - 2 * t * f2 x) _ (fun t => M * t ^ 3 / 3)); auto; try (rewrite ?Rmult_0_r, ?Rplus_0_r; field).
    intros t Ht. destruct (D t Ht) as [D1 D2]. destruct (F _ D1) as (A1 & _). destruct (F _ D2) as (B1 & _).
    split; [|split].
    - apply dlim_minus; [apply (S f f1); apply dlim_shift; auto|]. apply is_derive_Reals. auto_derive; auto. ring.
    - apply is_derive_Reals. auto_derive; auto. field.
    - apply G1; auto. }
  specialize (G2 t0 ltac:(lra)). specialize (G0 t0 ltac:(lra)).
  replace (x + 1 * t0) with (x + t0) in * by ring. replace (x + -1 * t0) with (x - t0) in * by ring. auto.
Qed.
End Four.

Lemma error4 f M y W x : natural n y W -> fourth_within g M f -> (forall i, (0 <= i < n)%Z -> y i = f (gnode g i)) -> in_dim g x ->
  Rabs (wsum 3 0 g W x - f x) <= 7 / 64 * M * h ^ 4 /\
  forall l, derivable_pt_lim f x l -> Rabs (wsum 3 1 g W x - l) <= 7 / 8 * M * h ^ 3.
Proof.
  intros N (f1 & f2 & f3 & f4 & F & Fl & Fr) Hy Hx. pose proof (proj1 Hg) as Hn. cbn [gsize g] in Hn. pose proof hpos1 as Hh.
  destruct (own_cell x Hx) as [Hc Hxc]. set (c := cellR g x) in *.
  assert (HM : 0 <= M) by (destruct (F x Hx) as (_ & _ & _ & _ & B); pose proof (Rabs_pos (f4 x)); lra).
  set (d i := curv W i / h ^ 2 - f2 (gnode g i)).
  assert (Hh2 : 0 < h ^ 2) by nra.
  assert (B : forall i, (0 <= i < n)%Z -> Rabs (d i) <= 3 * (M * h ^ 2 / 4)).
  { destruct (curv_ends n y W N ltac:(lia)) as [C0 C1]. apply dominant; try lia.
    - apply Rmult_le_pos; [|lra]. apply Rmult_le_pos; lra.
    - unfold d. rewrite C0. change (gnode g 0) with (glo g). rewrite Fl. field. lra.
    - unfold d. rewrite C1. change (gnode g (n - 1)) with (ghi g). rewrite Fr. field. lra.
    - intros i Hi.
      assert (E1 : gnode g (i - 1) = gnode g i - h) by (pose proof (node_step (i - 1)) as E; replace (i - 1 + 1)%Z with i in E by lia; lra).
      assert (E2 : gnode g (i + 1) = gnode g i + h) by (pose proof (node_step i) as E; lra).
      assert (D1 : in_dim g (gnode g i - h)) by (rewrite <- E1; apply gnode_in_dim; auto; cbn; lia).
      assert (D2 : in_dim g (gnode g i + h)) by (rewrite <- E2; apply gnode_in_dim; auto; cbn; lia).
      destruct (symmetric f f1 f2 f3 f4 M F (gnode g i) h ltac:(lra) D1 D2) as [S2 S0].
      pose proof (curv_eq n y W i N Hi) as CE. rewrite !Hy in CE by lia. rewrite E1, E2 in CE.
      assert (Q : (d (i - 1)%Z + 4 * d i + d (i + 1)%Z) / 6 =
        (f (gnode g i + h) + f (gnode g i - h) - 2 * f (gnode g i) - h ^ 2 * f2 (gnode g i)) / h ^ 2
        - (f2 (gnode g i + h) + f2 (gnode g i - h) - 2 * f2 (gnode g i)) / 6).
      { unfold d. rewrite E1, E2.
        replace ((curv W (i - 1) / h ^ 2 - f2 (gnode g i - h) + 4 * (curv W i / h ^ 2 - f2 (gnode g i)) + (curv W (i + 1) / h ^ 2 - f2 (gnode g i + h))) / 6)
          with ((curv W (i - 1) + 4 * curv W i + curv W (i + 1)) / 6 / h ^ 2 - (f2 (gnode g i - h) + 4 * f2 (gnode g i) + f2 (gnode g i + h)) / 6) by (field; lra).
        rewrite CE. field. lra. }
      rewrite Q. apply Rabs_le_between in S2, S0.
      set (u := f (gnode g i + h) + f (gnode g i - h) - 2 * f (gnode g i) - h ^ 2 * f2 (gnode g i)) in *.
      set (v := f2 (gnode g i + h) + f2 (gnode g i - h) - 2 * f2 (gnode g i)) in *.
      assert (U : - (M * h ^ 2 / 12) <= u / h ^ 2 <= M * h ^ 2 / 12).
      { split; [apply Rle_div_r|apply Rle_div_l]; auto; replace (M * h ^ 4 / 12) with (M * h ^ 2 / 12 * h ^ 2) in S0 by field; lra. }
      apply Rabs_le. lra. }
  destruct (cell_error f f1 f2 y W c N Hc Hy (7 / 8 * M * h ^ 2) x Hxc) as [A1 A2].
  { intros t Ht. assert (Dt : in_dim g t) by (now apply (cell_dim c)). destruct (F t Dt) as (T1 & T2 & T3 & T4 & T5). split; auto. split; auto.
    rewrite cub_curv. assert (L : 0 <= lamC g c t <= 1) by (apply lamC_in; auto).
    pose proof (B c ltac:(lia)) as B0. pose proof (B (c + 1)%Z ltac:(lia)) as B1.
    assert (C2 : curvature_within g M f2).
    { exists f3, f4. intros s Hs. destruct (F s Hs) as (_ & _ & X3 & X4 & X5). auto. }
    pose proof (linear_1d g c t M f2 Hg Hc Ht C2) as E. rewrite (node_step c) in E.
    unfold d in B0, B1. set (la := lamC g c t) in *.
    replace (/ h * (/ h * ((1 - la) * curv W c + la * curv W (c + 1)))) with ((1 - la) * (curv W c / h ^ 2) + la * (curv W (c + 1) / h ^ 2)) by (field; lra).
    apply Rabs_le_between in B0, B1, E.
    set (k0 := curv W c / h ^ 2) in *. set (k1 := curv W (c + 1) / h ^ 2) in *. clearbody k0 k1 la.
    set (z0 := f2 (gnode g c)) in *. set (z1 := f2 (gnode g (c + 1))) in *. set (z := f2 t) in *. clearbody z0 z1 z.
    set (mh := M * h ^ 2) in *. assert (0 <= mh) by (unfold mh; apply Rmult_le_pos; lra).
    replace (7 / 8 * M * h ^ 2) with (7 / 8 * mh) by (unfold mh; ring). clearbody mh. clear - L B0 B1 E H.
    assert (Q : - (3 * (mh / 4)) <= (1 - la) * (k0 - z0) + la * (k1 - z1) <= 3 * (mh / 4)) by (split; nra).
    apply Rabs_le. lra. }
  unfold g. rewrite wsum_cub, wsum_dcub by auto. unfold cubG. fold g c. split.
  - replace (7 / 64 * M * h ^ 4) with (7 / 8 * M * h ^ 2 * h ^ 2 / 8) by field. exact A1.
  - intros l Hl. replace l with (f1 x). + replace (7 / 8 * M * h ^ 3) with (7 / 8 * M * h ^ 2 * h) by ring. exact A2.
    + destruct (F x Hx) as (T1 & _). exact (uniqueness_limite f x _ _ T1 Hl).
Qed.
End One.

(** ** Several dimensions *)
Lemma PF_lin ns : big ns -> forall ia D D' s t, inb (all2 ns) ia = true ->
  PF ns (fun r => s * D r + t * D' r) ia = s * PF ns D ia + t * PF ns D' ia.
Proof.
  intros HB. induction HB as [|n ns Hn HB IH]; intros [|i ia] D D' s t H; try discriminate; auto.
  cbn [PF]. cbn in H. apply andb_true_iff in H as [H1 H2]. rewrite <- IH by auto.
  apply PF_ext; auto. intros j Hj.
  apply (solR_unique n _ (fun i => s * solR n (fun k => D (k :: j)) i + t * solR n (fun k => D' (k :: j)) i)); auto; try lia.
  apply natural_lin; apply solR_natural; auto.
Qed.

(** The value of the spline through the data D at pt. *)
Definition spl (grid : list (gdim R)) (D : list Z -> R) (pt : list R) : R := VR 3 grid (zeros grid) (PF (map gsize grid) D) pt.

Lemma spl_ext grid D D' pt : valid_grid grid -> length pt = length grid ->
  (forall j, inb (map gsize grid) j = true -> D j = D' j) -> spl grid D pt = spl grid D' pt.
Proof.
  intros Hv HL H. apply VR_ext; auto using zeros_length. intros idx Hi. apply PF_ext; auto using big_sizes. now rewrite all2_csize.
Qed.
Lemma spl_lin grid D D' s t pt : valid_grid grid -> length pt = length grid ->
  spl grid (fun r => s * D r + t * D' r) pt = s * spl grid D pt + t * spl grid D' pt.
Proof.
  intros Hv HL. unfold spl.
  rewrite (VR_ext 3 grid _ _ (fun ia => s * PF (map gsize grid) D ia + t * PF (map gsize grid) D' ia)); auto using zeros_length.
  - unfold VR. rewrite NS_plus, !NS_scal. reflexivity.
  - intros idx Hi. apply PF_lin; auto using big_sizes. now rewrite all2_csize.
Qed.

Lemma spl_cons g grid D x pt : valid_dim g -> valid_grid grid -> length pt = length grid ->
  spl (g :: grid) D (x :: pt) = wsum 3 0 g (solR (gsize g) (fun k => spl grid (fun r => D (k :: r)) pt)) x.
Proof.
  intros Hg Hv HL. unfold spl at 1, VR, zeros. cbn [map]. rewrite dims_cons. cbn [NS]. unfold wsum. apply zsum_ext. intros j Hj. f_equal.
  change (spl grid (fun r => solR (gsize g) (fun k => D (k :: r)) j) pt = solR (gsize g) (fun k => spl grid (fun r => D (k :: r)) pt) j).
  set (Q := fun j => spl grid (fun r => solR (gsize g) (fun k => D (k :: r)) j) pt).
  change (Q j = solR (gsize g) (fun k => spl grid (fun r => D (k :: r)) pt) j).
  symmetry. rewrite csize_3 in Hj. apply (solR_unique (gsize g) _ Q); auto; [apply Hg|].
  assert (L3 : forall u v w i j k, u * Q i + v * Q j + w * Q k =
    spl grid (fun r => u * solR (gsize g) (fun k => D (k :: r)) i + v * solR (gsize g) (fun k => D (k :: r)) j + w * solR (gsize g) (fun k => D (k :: r)) k) pt).
  { intros u v w i j' k. unfold Q.
    transitivity (spl grid (fun r => 1 * (u * solR (gsize g) (fun k => D (k :: r)) i + v * solR (gsize g) (fun k => D (k :: r)) j') + w * solR (gsize g) (fun k => D (k :: r)) k) pt).
    2: { apply spl_ext; auto. intros; ring. }
    rewrite (spl_lin grid (fun r => u * solR (gsize g) (fun k => D (k :: r)) i + v * solR (gsize g) (fun k => D (k :: r)) j')) by auto.
    rewrite spl_lin by auto. ring. }
  assert (Z0 : spl grid (fun _ => 0) pt = 0).
  { rewrite (spl_ext grid _ (fun r => 0 * 0 + 0 * 0)) by (auto; intros; ring). rewrite (spl_lin grid (fun _ => 0) (fun _ => 0)) by auto. ring. }
  assert (N : forall r, natural (gsize g) (fun k => D (k :: r)) (solR (gsize g) (fun k => D (k :: r)))) by (intros; apply solR_natural; apply Hg).
  split; [|split].
  - intros i Hi. replace ((Q i + 4 * Q (i + 1)%Z + Q (i + 2)%Z) / 6) with (1 / 6 * Q i + 4 / 6 * Q (i + 1)%Z + 1 / 6 * Q (i + 2)%Z) by field.
    rewrite L3. apply spl_ext; auto. intros r Hr. destruct (N r) as [A _]. rewrite <- (A i Hi). field.
  - replace (Q 0%Z - 2 * Q 1%Z + Q 2%Z) with (1 * Q 0%Z + -2 * Q 1%Z + 1 * Q 2%Z) by ring.
    rewrite L3, <- Z0. apply spl_ext; auto. intros r Hr. destruct (N r) as (_ & A & _). rewrite <- A. ring.
  - replace (Q (gsize g - 1)%Z - 2 * Q (gsize g) + Q (gsize g + 1)%Z) with (1 * Q (gsize g - 1)%Z + -2 * Q (gsize g) + 1 * Q (gsize g + 1)%Z) by ring.
    rewrite L3, <- Z0. apply spl_ext; auto. intros r Hr. destruct (N r) as (_ & _ & A). rewrite <- A. ring.
Qed.

Lemma wsum3_minus g W W' x : wsum 3 0 g (fun i => W i - W' i) x = wsum 3 0 g W x - wsum 3 0 g W' x.
Proof. unfold wsum. rewrite <- zsum_minus. apply zsum_ext. intros. ring. Qed.

(** Splines through nearby data are near. *)
Lemma near1 g y y' eps x : valid_dim g -> ~ is_array g -> in_dim g x -> (forall k, (0 <= k < gsize g)%Z -> Rabs (y k - y' k) <= eps) ->
  Rabs (wsum 3 0 g (solR (gsize g) y) x - wsum 3 0 g (solR (gsize g) y') x) <= 5 / 2 * eps.
Proof.
  intros Hg Hu Hx H. destruct g as [a b n|]; [|cbn in Hu; tauto]. cbn [gsize] in *. rewrite <- wsum3_minus.
  apply (stable1 a b n Hg (fun k => y k - y' k)); auto.
  destruct (solR_natural n y (proj1 Hg)) as (A & A0 & A1). destruct (solR_natural n y' (proj1 Hg)) as (B & B0 & B1).
  split; [|split]; [intros i Hi; rewrite <- A, <- B by auto; field | lra | lra].
Qed.

Lemma spl_near grid : valid_grid grid -> all_uniform grid -> forall D D' eps pt, in_domain grid pt ->
  (forall j, inb (map gsize grid) j = true -> Rabs (D j - D' j) <= eps) ->
  Rabs (spl grid D pt - spl grid D' pt) <= (5 / 2) ^ length grid * eps.
Proof.
  intros Hv. induction Hv as [|g grid Hg Hv IH]; intros HU D D' eps pt Hd H.
  - inversion Hd; subst. cbn. rewrite Rmult_1_l. apply H. reflexivity.
  - inversion HU as [|? ? U1 U2]; subst. inversion Hd as [|? x ? pt' Hx Hd']; subst.
    rewrite !spl_cons by (auto; now apply in_domain_length).
    cbn [length pow]. rewrite Rmult_assoc. apply near1; auto. intros k Hk. apply IH; auto.
    intros j Hj. apply H. cbn. rewrite Hj. lia.
Qed.

(** The error in d dimensions from the error in one. *)
Lemma spl_error (P : gdim R -> R -> (R -> R) -> Prop) K p : 
  (forall a b n f M y W x, let g := Unif a b n in valid_dim g -> natural n y W -> P g M f ->
     (forall i, (0 <= i < n)%Z -> y i = f (gnode g i)) -> in_dim g x -> Rabs (wsum 3 0 g W x - f x) <= K * M * step g ^ p) ->
  forall grid, valid_grid grid -> all_uniform grid -> forall Ms f pt, in_domain grid pt -> along_axes P grid Ms f ->
  Rabs (spl grid (fun idx => f (node_at grid idx)) pt - f pt) <= cubic_error K p grid Ms.
Proof.
  intros H1 grid Hv. induction Hv as [|g grid Hg Hv IH]; intros HU [|M Ms] f pt Hd Hf; cbn [along_axes] in Hf; try tauto.
  - inversion Hd; subst. cbn. rewrite Rminus_diag_eq, Rabs_R0 by auto. lra.
  - inversion HU as [|? ? U1 U2]; subst. inversion Hd as [|? x ? pt' Hx Hd']; subst. destruct Hf as [Hf1 Hf2].
    rewrite spl_cons by (auto; now apply in_domain_length). cbn [cubic_error].
    set (y := fun k => f (gnode g k :: pt')).
    assert (A : Rabs (wsum 3 0 g (solR (gsize g) (fun k => spl grid (fun r => f (node_at (g :: grid) (k :: r))) pt')) x - wsum 3 0 g (solR (gsize g) y) x) <= 5 / 2 * cubic_error K p grid Ms).
    { apply near1; auto. intros k Hk. apply (IH U2 Ms (fun q => f (gnode g k :: q)) pt' Hd'). apply Hf2. now apply gnode_in_dim. }
    assert (B : Rabs (wsum 3 0 g (solR (gsize g) y) x - f (x :: pt')) <= K * M * step g ^ p).
    { destruct g as [a b n|]; [|cbn in U1; tauto]. cbn [gsize].
      apply (H1 a b n (fun t => f (t :: pt')) M y (solR n y) x); auto. apply solR_natural. apply Hg. }
    apply Rabs_le_between in A, B. apply Rabs_le. lra.
Qed.

(** ** Calls *)
Lemma value_spl mode grid comps (V : arr R) C pt suf v :
  valid_grid grid -> all_uniform grid -> supported_dim grid -> values_ok grid comps V -> inb comps suf = true -> in_domain grid pt ->
  filter_cubic grid V None = Ok (VArr C, None) -> value_cubic mode grid comps C pt suf v ->
  v = spl grid (fun idx => acell V (idx ++ suf)) pt.
Proof.
  intros Hv HU HS HV Hs Hd E H. destruct (filter_call grid comps V Hv HU HS HV) as [C1 (X1 & HC & F)].
  rewrite E in X1. inversion X1; subst C1. apply value_cubic_at in H.
  apply value_at_none in H; auto; [|right; auto|now apply in_domain_length]. subst v. rewrite xpoint_inside by auto.
  apply VR_ext; auto using zeros_length, in_domain_length.
Qed.

Theorem cubic_stable mode mode' grid comps (V V' : arr R) C C' eps pt suf v v' :
  valid_grid grid -> all_uniform grid -> supported_dim grid -> values_ok grid comps V -> values_ok grid comps V' ->
  inb comps suf = true -> in_domain grid pt ->
  (forall idx, inb (map gsize grid) idx = true -> Rabs (acell V (idx ++ suf) - acell V' (idx ++ suf)) <= eps) ->
  filter_cubic grid V None = Ok (VArr C, None) -> filter_cubic grid V' None = Ok (VArr C', None) ->
  value_cubic mode grid comps C pt suf v -> value_cubic mode' grid comps C' pt suf v' ->
  Rabs (v - v') <= (5 / 2) ^ length grid * eps.
Proof.
  intros Hv HU HS HV HV' Hs Hd He E E' H H'.
  rewrite (value_spl mode grid comps V C pt suf v) by auto. rewrite (value_spl mode' grid comps V' C' pt suf v') by auto.
  apply spl_near; auto.
Qed.

Theorem cubic_order (P : gdim R -> R -> (R -> R) -> Prop) K p mode grid comps (V C : arr R) Ms f pt suf v :
  (forall a b n f M y W x, let g := Unif a b n in valid_dim g -> natural n y W -> P g M f ->
     (forall i, (0 <= i < n)%Z -> y i = f (gnode g i)) -> in_dim g x -> Rabs (wsum 3 0 g W x - f x) <= K * M * step g ^ p) ->
  valid_grid grid -> all_uniform grid -> supported_dim grid -> values_ok grid comps V ->
  inb comps suf = true -> in_domain grid pt ->
  (forall idx, inb (map gsize grid) idx = true -> acell V (idx ++ suf) = f (node_at grid idx)) ->
  along_axes P grid Ms f ->
  filter_cubic grid V None = Ok (VArr C, None) -> value_cubic mode grid comps C pt suf v ->
  Rabs (v - f pt) <= cubic_error K p grid Ms.
Proof.
  intros H1 Hv HU HS HV Hs Hd Hf HM E H. rewrite (value_spl mode grid comps V C pt suf v) by auto.
  rewrite (spl_ext grid _ (fun idx => f (node_at grid idx))) by (auto using in_domain_length).
  apply (spl_error P); auto.
Qed.

Theorem cubic_second_order mode grid comps (V C : arr R) Ms f pt suf v :
  valid_grid grid -> all_uniform grid -> supported_dim grid -> values_ok grid comps V ->
  inb comps suf = true -> in_domain grid pt ->
  (forall idx, inb (map gsize grid) idx = true -> acell V (idx ++ suf) = f (node_at grid idx)) ->
  along_axes curvature_within grid Ms f ->
  filter_cubic grid V None = Ok (VArr C, None) -> value_cubic mode grid comps C pt suf v ->
  Rabs (v - f pt) <= cubic_error (1 / 2) 2 grid Ms.
Proof.
  apply cubic_order. intros a b n f0 M y W x g Hg N HP Hy Hx. unfold g. rewrite (step_h a b n Hg). now apply (error2 a b n Hg f0 M y W x).
Qed.

Theorem cubic_fourth_order mode grid comps (V C : arr R) Ms f pt suf v :
  valid_grid grid -> all_uniform grid -> supported_dim grid -> values_ok grid comps V ->
  inb comps suf = true -> in_domain grid pt ->
  (forall idx, inb (map gsize grid) idx = true -> acell V (idx ++ suf) = f (node_at grid idx)) ->
  along_axes fourth_within grid Ms f ->
  filter_cubic grid V None = Ok (VArr C, None) -> value_cubic mode grid comps C pt suf v ->
  Rabs (v - f pt) <= cubic_error (7 / 64) 4 grid Ms.
Proof.
  apply cubic_order. intros a b n f0 M y W x g Hg N HP Hy Hx. unfold g. rewrite (step_h a b n Hg). now apply (error4 a b n Hg f0 M y W x).
Qed.

(** The derivative in one dimension. *)
Theorem cubic_derivative_order mode a b n (V C : arr R) M f l t v :
  let g := Unif a b n in
  valid_dim g -> ashape V = [n] -> (forall i, (0 <= i < n)%Z -> acell V [i] = f (gnode g i)) -> in_dim g t ->
  filter_cubic [g] V None = Ok (VArr C, None) ->
  value_at 3 (Some [[1%Z]]) mode [g] [] C [t] [0%Z] v ->
  derivable_pt_lim f t l ->
  (curvature_within g M f -> Rabs (v - l) <= 4 * M * step g) /\
  (fourth_within g M f -> Rabs (v - l) <= 7 / 8 * M * step g ^ 3).
Proof.
  intros g Hg HV Hf Ht E H Hl.
  assert (Hv : valid_grid [g]) by (constructor; auto).
  assert (HU : all_uniform [g]) by (constructor; auto).
  assert (HVok : values_ok [g] [] V) by (split; auto).
  destruct (filter_call [g] [] V Hv HU ltac:(unfold supported_dim; cbn; lia) HVok) as [C1 (X1 & HC & F)].
  rewrite E in X1. inversion X1; subst C1.
  assert (D : diff_ok 3 [g] (Some [[1%Z]])).
  { split; [split; [discriminate|repeat constructor]|]. repeat constructor; lia. }
  apply value_at_iff in H; auto; [|right; auto].
  assert (W : v = wsum 3 1 g (solR n (fun i => acell V [i])) t).
  { rewrite H. unfold outcome. rewrite xpoint_inside by (constructor; auto).
    unfold VR, diff_of, comp_of. cbn. unfold wsum. apply zsum_ext. intros i Hi. f_equal.
    rewrite <- (app_nil_r [i]). rewrite F; auto. cbn. rewrite andb_true_r. unfold csize in *. lia. }
  rewrite W. unfold g in *. rewrite (step_h a b n Hg).
  pose proof (solR_natural n (fun i => acell V [i]) (proj1 Hg)) as N.
  split; intros HM.
  - now apply (error2 a b n Hg f M _ _ t N HM Hf Ht).
  - now apply (error4 a b n Hg f M _ _ t N HM Hf Ht).
Qed.
