(** Error bounds for linear and cubic splines, over the reals (C67-C69). *)
From Coq Require Import ZArith List Bool Reals Lia Lra Psatz ZifyBool.
From Coquelicot Require Import Coquelicot.
From Verif Require Import Base BaseFacts SplineModel Spec SpecError EvalProps EvalValue EvalR WeightsR RSum EvalExact EvalRProps EvalCases.
Import ListNotations.
Open Scope R_scope.

(** ** A function that is zero at both ends of an interval *)
Lemma mvt f f' a b : a < b -> (forall x, a <= x <= b -> derivable_pt_lim f x (f' x)) ->
  exists c, a < c < b /\ f b - f a = f' c * (b - a).
Proof.
  intros Hab H. destruct (MVT_cor2 f f' a b Hab H) as [c [E Hc]]. exists c; auto.
Qed.

Lemma dlim_minus f g x l m : derivable_pt_lim f x l -> derivable_pt_lim g x m -> derivable_pt_lim (fun t => f t - g t) x (l - m).
Proof. apply derivable_pt_lim_minus. Qed.

(** e(p) = e(q) = 0 and |e''| <= K: |e(x)| <= K (x-p)(q-x)/2 *)
Lemma chord e e1 e2 p q K x : p <= x <= q -> e p = 0 -> e q = 0 ->
  (forall t, p <= t <= q -> derivable_pt_lim e t (e1 t) /\ derivable_pt_lim e1 t (e2 t) /\ Rabs (e2 t) <= K) ->
  Rabs (e x) <= K * ((x - p) * (q - x) / 2).
Proof.
  intros Hx Ep Eq H.
  destruct (Req_dec x p) as [->|N1]. { rewrite Ep, Rabs_R0. lra. }
  destruct (Req_dec x q) as [->|N2]. { rewrite Eq, Rabs_R0. lra. }
  set (w := fun t => (t - p) * (q - t)).
  set (s := e x / w x).
  assert (Wx : 0 < w x) by (unfold w; apply Rmult_lt_0_compat; lra).
  set (G := fun t => e t - s * w t). set (G1 := fun t => e1 t - s * (p + q - 2 * t)). set (G2 := fun t => e2 t + 2 * s).
  assert (D1 : forall t, p <= t <= q -> derivable_pt_lim G t (G1 t)).
  { intros t Ht. apply dlim_minus; [apply H; auto|]. apply is_derive_Reals. unfold w. auto_derive; auto. ring. }
  assert (D2 : forall t, p <= t <= q -> derivable_pt_lim G1 t (G2 t)).
  { intros t Ht. unfold G1, G2. replace (e2 t + 2 * s) with (e2 t - (- 2 * s)) by ring.
    apply dlim_minus; [apply H; auto|]. apply is_derive_Reals. auto_derive; auto. ring. }
  assert (Gx : G x = 0) by (unfold G, s; field; lra).
  assert (Gp : G p = 0) by (unfold G, w; rewrite Ep; ring).
  assert (Gq : G q = 0) by (unfold G, w; rewrite Eq; ring).
  destruct (mvt G G1 p x) as [u [Hu Eu]]; [lra|intros; apply D1; lra|].
  destruct (mvt G G1 x q) as [v [Hv Ev]]; [lra|intros; apply D1; lra|].
  assert (U0 : G1 u = 0) by (assert (G1 u * (x - p) = 0) by lra; destruct (Rmult_integral _ _ H0); lra).
  assert (V0 : G1 v = 0) by (assert (G1 v * (q - x) = 0) by lra; destruct (Rmult_integral _ _ H0); lra).
  destruct (mvt G1 G2 u v) as [z [Hz Ez]]; [lra|intros; apply D2; lra|].
  assert (Z0 : G2 z = 0) by (assert (G2 z * (v - u) = 0) by lra; destruct (Rmult_integral _ _ H0); lra).
  unfold G2 in Z0. assert (Es : e x = s * w x) by (unfold s; field; lra).
  assert (Hs : s = - (e2 z / 2)) by lra.
  rewrite Es, Hs. destruct (H z) as (_ & _ & B); [lra|].
  rewrite Rabs_mult, (Rabs_right (w x)) by lra. rewrite Rabs_Ropp. unfold Rdiv. rewrite Rabs_mult, (Rabs_right (/ 2)) by lra.
  unfold w in *. nra.
Qed.

Lemma chord8 e e1 e2 p q K x : p <= x <= q -> e p = 0 -> e q = 0 ->
  (forall t, p <= t <= q -> derivable_pt_lim e t (e1 t) /\ derivable_pt_lim e1 t (e2 t) /\ Rabs (e2 t) <= K) ->
  Rabs (e x) <= K * (q - p) ^ 2 / 8.
Proof.
  intros Hx Ep Eq H. pose proof (chord e e1 e2 p q K x Hx Ep Eq H) as B.
  assert (0 <= K). { destruct (H p) as (_ & _ & B'); [lra|]. pose proof (Rabs_pos (e2 p)). lra. }
  assert ((x - p) * (q - x) / 2 <= (q - p) ^ 2 / 8).
  { pose proof (pow2_ge_0 ((x - p) - (q - x))). nra. }
  apply (Rle_trans _ _ _ B). unfold Rdiv at 2. rewrite Rmult_assoc. apply Rmult_le_compat_l; auto.
Qed.

(** ** Linear splines *)
Lemma cell_adm g i x : valid_dim g -> (0 <= i /\ i + 1 <= gsize g - 1)%Z -> gnode g i <= x <= gnode g (i + 1) -> admissible g i x.
Proof. intros H Hi Hx. split; [lia|]. split; intros; lra. Qed.

Lemma wsum1_cell g i x W : valid_dim g -> (0 <= i /\ i + 1 <= gsize g - 1)%Z -> gnode g i <= x <= gnode g (i + 1) ->
  zsum (csize 1 g) (fun j => phi 1 0 g x j * W j) = (1 - lamC g i x) * W i + lamC g i x * W (i + 1)%Z.
Proof.
  intros Hg Hi Hx.
  rewrite (zsum_ext _ _ (fun j => piece1 g i j x * 0 + piece1 g j i x * W j)).
  2: { intros j _. rewrite (phi1_any g j i x) by (auto using cell_adm). ring. }
  rewrite (zsum_window _ _ i 2); unfold csize; try lia.
  - rewrite zsum_2. unfold piece1. rewrite Z.add_0_r, !Z.eqb_refl. replace (i + 1 =? i)%Z with false by lia. ring.
  - intros j Hj Ho. unfold piece1 at 2. replace (j =? i)%Z with false by lia. replace (j =? i + 1)%Z with false by lia. ring.
Qed.

Lemma lamC_in g i x : valid_dim g -> (0 <= i /\ i + 1 <= gsize g - 1)%Z -> gnode g i <= x <= gnode g (i + 1) -> 0 <= lamC g i x <= 1.
Proof.
  intros Hg Hi Hx. pose proof (gnode_step g i Hg ltac:(lia)) as G. unfold lamC. split.
  - apply Rdiv_le_0_compat; lra.
  - apply Rle_div_l; lra.
Qed.

Lemma VR1_cons g grid c x pt : VR 1 (g :: grid) (zeros (g :: grid)) c (x :: pt) =
  zsum (csize 1 g) (fun j => phi 1 0 g x j * VR 1 grid (zeros grid) (fun idx => c (j :: idx)) pt).
Proof. reflexivity. Qed.

Lemma VR1_corners grid : valid_grid grid -> forall c C m M pt, in_cell grid c pt ->
  (forall idx, corner c idx -> m <= C idx <= M) -> m <= VR 1 grid (zeros grid) C pt <= M.
Proof.
  intros Hv. induction Hv as [|g grid Hg Hv IH]; intros [|i c] C m M [|x pt] Hc HC; cbn [in_cell] in Hc; try tauto.
  - cbn. apply HC. constructor.
  - destruct Hc as (Hi & Hx & Hc). rewrite VR1_cons, (wsum1_cell g i x) by auto.
    pose proof (lamC_in g i x Hg Hi Hx) as L.
    assert (A : m <= VR 1 grid (zeros grid) (fun idx => C (i :: idx)) pt <= M)
      by (apply (IH c); auto; intros; apply HC; constructor; auto).
    assert (B : m <= VR 1 grid (zeros grid) (fun idx => C ((i + 1)%Z :: idx)) pt <= M)
      by (apply (IH c); auto; intros; apply HC; constructor; auto).
    nra.
Qed.

Lemma in_cell_domain grid : valid_grid grid -> forall c pt, in_cell grid c pt -> in_domain grid pt.
Proof.
  intros Hv. induction Hv as [|g grid Hg Hv IH]; intros [|i c] [|x pt] H; cbn [in_cell] in H; try tauto; constructor.
  - destruct H as (Hi & Hx & _). unfold in_dim, glo, ghi.
    pose proof (gnode_le g 0 i Hg ltac:(lia) ltac:(lia) ltac:(lia)).
    pose proof (gnode_le g (i + 1) (gsize g - 1) Hg ltac:(lia) ltac:(lia) ltac:(lia)). lra.
  - apply (IH c). tauto.
Qed.

Lemma corner_inb grid : forall c pt idx, in_cell grid c pt -> corner c idx -> inb (map gsize grid) idx = true.
Proof.
  induction grid as [|g grid IH]; intros [|i c] [|x pt] idx H K; cbn [in_cell] in H; try tauto; inversion K; subst; auto.
  cbn. rewrite (IH c pt) by tauto. destruct H as (Hi & _ & _). rewrite andb_true_r. lia.
Qed.

(** The value at a point lies between the least and the greatest of the values at the corners
    of its cell. *)
Theorem linear_between_corners mode grid comps (C : arr R) c m M pt suf v :
  valid_grid grid -> coefs_ok 1 grid comps C -> inb comps suf = true -> in_cell grid c pt ->
  (forall idx, corner c idx -> m <= acell C (idx ++ suf) <= M) ->
  value_linear mode grid comps C pt suf v -> m <= v <= M.
Proof.
  intros Hv HC Hs Hp Hm H. apply value_linear_at in H. pose proof (in_cell_domain grid Hv c pt Hp) as Hd.
  apply value_at_none in H; auto; [|now left|now apply in_domain_length]. subst v.
  rewrite xpoint_inside by auto. now apply (VR1_corners grid Hv c).
Qed.

Theorem linear_modulus mode grid comps (C : arr R) c f eps pt suf v :
  valid_grid grid -> coefs_ok 1 grid comps C -> inb comps suf = true -> in_cell grid c pt ->
  (forall idx, corner c idx -> acell C (idx ++ suf) = f (node_at grid idx)) ->
  (forall q, in_cell grid c q -> Rabs (f q - f pt) <= eps) ->
  value_linear mode grid comps C pt suf v -> Rabs (v - f pt) <= eps.
Proof.
  intros Hv HC Hs Hp Hf He H.
  cut (f pt - eps <= v <= f pt + eps). { intros [A B]. apply Rabs_le. lra. }
  apply (linear_between_corners mode grid comps C c _ _ pt suf v); auto.
  intros idx Hi. rewrite Hf by auto.
  assert (Q : in_cell grid c (node_at grid idx)).
  { clear - Hv Hp Hi. revert c pt idx Hp Hi. induction Hv as [|g grid Hg Hv IH]; intros [|i c] [|x pt] idx Hp Hi; cbn [in_cell] in Hp; try tauto; inversion Hi; subst; cbn; auto.
    destruct Hp as (A & B & D). pose proof (gnode_step g i Hg ltac:(lia)).
    split; auto. split; [destruct H1 as [->| ->]; lra|]. now apply (IH c pt). }
  specialize (He _ Q). apply Rabs_le_between in He. lra.
Qed.

Lemma linear_1d g i x M f : valid_dim g -> (0 <= i /\ i + 1 <= gsize g - 1)%Z -> gnode g i <= x <= gnode g (i + 1) ->
  curvature_within g M f ->
  Rabs ((1 - lamC g i x) * f (gnode g i) + lamC g i x * f (gnode g (i + 1)) - f x) <= M * (gnode g (i + 1) - gnode g i) ^ 2 / 8.
Proof.
  intros Hg Hi Hx (f1 & f2 & F). pose proof (gnode_step g i Hg ltac:(lia)) as G.
  apply (chord8 (fun t => (1 - lamC g i t) * f (gnode g i) + lamC g i t * f (gnode g (i + 1)) - f t)
    (fun t => (f (gnode g (i + 1)) - f (gnode g i)) / (gnode g (i + 1) - gnode g i) - f1 t) (fun t => 0 - f2 t) (gnode g i) (gnode g (i + 1)) M x); auto.
  - unfold lamC. field. lra.
  - unfold lamC. field. lra.
  - intros t Ht. assert (D : in_dim g t).
    { unfold in_dim, glo, ghi.
      pose proof (gnode_le g 0 i Hg ltac:(lia) ltac:(lia) ltac:(lia)).
      pose proof (gnode_le g (i + 1) (gsize g - 1) Hg ltac:(lia) ltac:(lia) ltac:(lia)). lra. }
    destruct (F t D) as (A & B & B2). split; [|split].
    + apply dlim_minus; auto. apply is_derive_Reals. unfold lamC. auto_derive; [lra|]. field. lra.
    + apply dlim_minus; auto. apply derivable_pt_lim_const.
    + rewrite Rminus_0_l, Rabs_Ropp. auto.
Qed.

Lemma VR1_error grid : valid_grid grid -> forall c Ms f pt, in_cell grid c pt -> along_axes curvature_within grid Ms f ->
  Rabs (VR 1 grid (zeros grid) (fun idx => f (node_at grid idx)) pt - f pt) <= linear_error grid c Ms.
Proof.
  intros Hv. induction Hv as [|g grid Hg Hv IH]; intros [|i c] [|M Ms] f [|x pt] Hc Hf; cbn [in_cell along_axes] in Hc, Hf; try tauto.
  - cbn. rewrite Rminus_diag_eq, Rabs_R0 by auto. lra.
  - destruct Hc as (Hi & Hx & Hc). destruct Hf as [Hf1 Hf2]. rewrite VR1_cons, (wsum1_cell g i x) by auto.
    pose proof (lamC_in g i x Hg Hi Hx) as L. cbn [linear_error].
    assert (Di : in_dim g (gnode g i)) by (apply gnode_in_dim; auto; lia).
    assert (Dj : in_dim g (gnode g (i + 1))) by (apply gnode_in_dim; auto; lia).
    pose proof (IH c Ms (fun p => f (gnode g i :: p)) pt Hc (Hf2 _ Di)) as A.
    pose proof (IH c Ms (fun p => f (gnode g (i + 1) :: p)) pt Hc (Hf2 _ Dj)) as B.
    pose proof (linear_1d g i x M (fun t => f (t :: pt)) Hg Hi Hx (Hf1 pt (in_cell_domain grid Hv c pt Hc))) as E.
    cbn [node_at map2]. unfold node_at in A, B. cbn beta in *.
    set (a := VR 1 grid (zeros grid) (fun idx => f (gnode g i :: map2 gnode grid idx)) pt) in *.
    set (b := VR 1 grid (zeros grid) (fun idx => f (gnode g (i + 1) :: map2 gnode grid idx)) pt) in *.
    apply Rabs_le_between in A, B, E. apply Rabs_le.
    set (er := linear_error grid c Ms) in *. set (la := lamC g i x) in *. nra.
Qed.

Theorem linear_second_order mode grid comps (C : arr R) c Ms f pt suf v :
  valid_grid grid -> coefs_ok 1 grid comps C -> inb comps suf = true -> in_cell grid c pt ->
  (forall idx, inb (map gsize grid) idx = true -> acell C (idx ++ suf) = f (node_at grid idx)) ->
  along_axes curvature_within grid Ms f ->
  value_linear mode grid comps C pt suf v -> Rabs (v - f pt) <= linear_error grid c Ms.
Proof.
  intros Hv HC Hs Hp Hf HM H. apply value_linear_at in H. pose proof (in_cell_domain grid Hv c pt Hp) as Hd.
  apply value_at_none in H; auto; [|now left|now apply in_domain_length]. subst v.
  rewrite xpoint_inside by auto. refine (Rle_trans _ _ _ _ (VR1_error grid Hv c Ms f pt Hp HM)).
  right. do 2 f_equal. unfold VR. apply NS_ext. intros idx Hi.
  rewrite dims_fst in Hi by (auto using zeros_length, in_domain_length). rewrite csize1_map in Hi. auto.
Qed.

(** The bound is attained: at the middle of a cell, by a sum of parabolas. *)
Lemma VR1_parabola grid : valid_grid grid -> forall c Ms k, length Ms = length grid -> in_cell grid c (midpoint grid c) ->
  VR 1 grid (zeros grid) (fun idx => k + parabola Ms (node_at grid idx)) (midpoint grid c) - (k + parabola Ms (midpoint grid c)) = linear_error grid c Ms.
Proof.
  intros Hv. induction Hv as [|g grid Hg Hv IH]; intros [|i c] [|M Ms] k HL Hc; cbn [in_cell midpoint map2] in Hc; try discriminate HL; try tauto.
  - cbn. ring.
  - destruct Hc as (Hi & Hx & Hc). fold (midpoint grid c) in Hc. cbn in HL. cbn [midpoint map2]. fold (midpoint grid c).
    set (x := (gnode g i + gnode g (i + 1)) / 2) in *. rewrite VR1_cons, (wsum1_cell g i x) by auto.
    pose proof (gnode_step g i Hg ltac:(lia)) as G.
    assert (L : lamC g i x = 1 / 2) by (unfold lamC, x; field; lra). rewrite L.
    assert (Q : forall t p, k + parabola (M :: Ms) (t :: p) = (k + M * t ^ 2 / 2) + parabola Ms p) by (intros; unfold parabola; cbn; ring).
    assert (X : forall j, VR 1 grid (zeros grid) (fun idx => k + parabola (M :: Ms) (node_at (g :: grid) (j :: idx))) (midpoint grid c) =
      VR 1 grid (zeros grid) (fun idx => (k + M * gnode g j ^ 2 / 2) + parabola Ms (node_at grid idx)) (midpoint grid c)).
    { intros j. unfold VR. apply NS_ext. intros idx _. cbn [node_at map2]. apply Q. }
    rewrite !X, Q. cbn [linear_error].
    pose proof (IH c Ms (k + M * gnode g i ^ 2 / 2) ltac:(lia) Hc) as A.
    pose proof (IH c Ms (k + M * gnode g (i + 1) ^ 2 / 2) ltac:(lia) Hc) as B.
    set (u := VR 1 grid (zeros grid) (fun idx => k + M * gnode g i ^ 2 / 2 + parabola Ms (node_at grid idx)) (midpoint grid c)) in *.
    set (w := VR 1 grid (zeros grid) (fun idx => k + M * gnode g (i + 1) ^ 2 / 2 + parabola Ms (node_at grid idx)) (midpoint grid c)) in *.
    replace u with (linear_error grid c Ms + (k + M * gnode g i ^ 2 / 2 + parabola Ms (midpoint grid c))) by lra.
    replace w with (linear_error grid c Ms + (k + M * gnode g (i + 1) ^ 2 / 2 + parabola Ms (midpoint grid c))) by lra.
    unfold x. field.
Qed.
Lemma parabola_curvature grid : forall Ms k, length Ms = length grid -> List.Forall (fun M => 0 <= M) Ms ->
  along_axes curvature_within grid Ms (fun x => k + parabola Ms x).
Proof.
  induction grid as [|g grid IH]; intros [|M Ms] k HL HM; try discriminate; [exact I|]. cbn in HL. inversion HM as [|M' Ms' H0 H1]; subst. cbn [along_axes]. split.
  - intros p _. exists (fun x => M * x), (fun _ => M). intros x _. unfold parabola; cbn [map2 fold_right]. set (q := fold_right Rplus 0 _). clearbody q. split; [|split].
    + apply is_derive_Reals. auto_derive; auto. field.
    + apply is_derive_Reals. auto_derive; auto. ring.
    + rewrite Rabs_right; lra.
  - intros t _. assert (E : (fun p => k + parabola (M :: Ms) (t :: p)) = (fun p => (k + M * t ^ 2 / 2) + parabola Ms p)).
    { apply FunctionalExtensionality.functional_extensionality. intros p. unfold parabola; cbn; ring. }
    rewrite E. apply IH; auto.
Qed.
Theorem linear_attained mode grid comps (C : arr R) c Ms suf v :
  valid_grid grid -> coefs_ok 1 grid comps C -> inb comps suf = true -> in_cell grid c (midpoint grid c) ->
  length Ms = length grid -> List.Forall (fun M => 0 <= M) Ms ->
  (forall idx, inb (map gsize grid) idx = true -> acell C (idx ++ suf) = parabola Ms (node_at grid idx)) ->
  value_linear mode grid comps C (midpoint grid c) suf v ->
  along_axes curvature_within grid Ms (parabola Ms) /\ v - parabola Ms (midpoint grid c) = linear_error grid c Ms.
Proof.
  intros Hv HC Hs Hp HL HM HF H. split.
  - assert (E : parabola Ms = (fun x => 0 + parabola Ms x)) by (apply FunctionalExtensionality.functional_extensionality; intros; ring).
    rewrite E. now apply parabola_curvature.
  - pose proof (in_cell_domain grid Hv c _ Hp) as Hd. apply value_linear_at in H.
    apply value_at_none in H; auto; [|now left|now apply in_domain_length]. subst v.
    rewrite xpoint_inside by auto. rewrite <- (VR1_parabola grid Hv c Ms 0 HL Hp). rewrite Rplus_0_l. f_equal.
    unfold VR. apply NS_ext. intros idx Hi.
    rewrite dims_fst in Hi by (auto using zeros_length, in_domain_length). rewrite csize1_map in Hi. rewrite HF by auto. ring.
Qed.
