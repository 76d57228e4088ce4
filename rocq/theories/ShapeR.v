(** Linear splines as operators and their shape; same nodes, units, exchanged axes; continuous
    derivatives (C73-C78), over the reals. *)
From Coq Require Import ZArith List Bool Reals Lia Lra Psatz ZifyBool.
From Flocq Require Import Core.Raux.
From Coquelicot Require Import Coquelicot.
From Verif Require Import Base BaseFacts SplineModel Spec SpecError SpecShape EvalProps EvalValue EvalR WeightsR RSum EvalExact EvalRProps EvalCases ErrorR.
Import ListNotations.
Open Scope R_scope.

(** ** Operators *)
Definition wpos (p : Z * (Z -> R)) : Prop := forall i, (0 <= i < fst p)%Z -> 0 <= snd p i.

Lemma NS_mono l : List.Forall wpos l -> forall c c', (forall idx, inb (map fst l) idx = true -> c idx <= c' idx) -> NS l c <= NS l c'.
Proof.
  intros H. induction H as [|[n w] l Hw H IH]; cbn; intros c c' Hc. now apply Hc.
  apply zsum_le. intros i Hi. apply Rmult_le_compat_l; [now apply Hw|]. apply IH. intros idx Hidx. apply Hc.
  rewrite Hidx, andb_true_r. lia.
Qed.

Lemma dims1_pos grid pt : valid_grid grid -> in_domain grid pt -> List.Forall wpos (dims 1 grid (zeros grid) pt).
Proof.
  intros Hv Hd. unfold zeros. induction Hd as [|g x grid pt Hx Hd IH]; cbn [map].
  - constructor.
  - inversion Hv; subst. rewrite dims_cons. constructor; auto. intros i Hi. cbn [fst snd]. now apply phi1_nonneg.
Qed.

Lemma VR1_mono grid c c' pt : valid_grid grid -> in_domain grid pt ->
  (forall idx, inb (map gsize grid) idx = true -> c idx <= c' idx) ->
  VR 1 grid (zeros grid) c pt <= VR 1 grid (zeros grid) c' pt.
Proof.
  intros Hv Hd Hc. apply NS_mono. now apply dims1_pos.
  intros idx Hi. apply Hc. rewrite dims_fst, csize1_map in Hi; auto using zeros_length, in_domain_length.
Qed.

Lemma linear_monotone mode grid comps (C C' : arr R) pt suf v v' :
  valid_grid grid -> coefs_ok 1 grid comps C -> coefs_ok 1 grid comps C' -> inb comps suf = true ->
  length pt = length grid -> (in_domain grid pt \/ default_mode mode <> XLinear) ->
  (forall idx, inb (map gsize grid) idx = true -> acell C (idx ++ suf) <= acell C' (idx ++ suf)) ->
  value_linear mode grid comps C pt suf v -> value_linear mode grid comps C' pt suf v' -> v <= v'.
Proof.
  intros Hv HC HC' Hs HL Hx Hc H H'. apply value_linear_at in H. apply value_linear_at in H'.
  apply value_at_none in H; auto; [|now left]. apply value_at_none in H'; auto; [|now left]. subst v v'.
  assert (E : xpoint (default_mode mode) grid pt = None \/ exists q, xpoint (default_mode mode) grid pt = Some q /\ in_domain grid q).
  { destruct Hx as [Hd|Hx].
    - right. exists pt. split; auto. now apply xpoint_inside.
    - destruct (default_mode mode); cbn; [|congruence|].
      + destruct (insideb grid pt) eqn:E; auto. right. exists pt. split; auto. now apply insideb_spec.
      + right. eexists; split; eauto. now apply proj_in_domain. }
  destruct E as [->|[q [-> Hq]]]; [lra|]. now apply VR1_mono.
Qed.

Lemma some_index grid : valid_grid grid -> exists idx, inb (map gsize grid) idx = true.
Proof.
  intros Hv. induction Hv as [|g grid Hg Hv [idx IH]].
  - exists []; auto.
  - exists (0%Z :: idx). cbn. rewrite IH, andb_true_r. destruct Hg. lia.
Qed.

Lemma linear_nonexpansive mode grid comps (C C' : arr R) eps pt suf v v' :
  valid_grid grid -> coefs_ok 1 grid comps C -> coefs_ok 1 grid comps C' -> inb comps suf = true ->
  length pt = length grid -> (in_domain grid pt \/ default_mode mode <> XLinear) ->
  (forall idx, inb (map gsize grid) idx = true -> Rabs (acell C (idx ++ suf) - acell C' (idx ++ suf)) <= eps) ->
  value_linear mode grid comps C pt suf v -> value_linear mode grid comps C' pt suf v' -> Rabs (v - v') <= eps.
Proof.
  intros Hv HC HC' Hs HL Hx Hc H H'. apply value_linear_at in H. apply value_linear_at in H'.
  apply value_at_none in H; auto; [|now left]. apply value_at_none in H'; auto; [|now left]. subst v v'.
  assert (E : xpoint (default_mode mode) grid pt = None \/ exists q, xpoint (default_mode mode) grid pt = Some q /\ in_domain grid q).
  { destruct Hx as [Hd|Hx].
    - right. exists pt. split; auto. now apply xpoint_inside.
    - destruct (default_mode mode); cbn; [|congruence|].
      + destruct (insideb grid pt) eqn:E; auto. right. exists pt. split; auto. now apply insideb_spec.
      + right. eexists; split; eauto. now apply proj_in_domain. }
  destruct E as [->|[q [-> Hq]]].
  - rewrite Rminus_0_r, Rabs_R0. destruct (some_index grid Hv) as [idx Hi]. specialize (Hc idx Hi).
    eapply Rle_trans; [|exact Hc]. apply Rabs_pos.
  - set (c := fun idx => acell C (idx ++ suf)). set (c' := fun idx => acell C' (idx ++ suf)).
    replace (VR 1 grid (zeros grid) c q - VR 1 grid (zeros grid) c' q) with (VR 1 grid (zeros grid) (fun i => c i + -1 * c' i) q).
    2:{ unfold VR. rewrite NS_plus, NS_scal. ring. }
    apply Rabs_le. apply VR1_range; auto. intros idx Hi. specialize (Hc idx Hi). apply Rabs_le_between in Hc. unfold c, c'. lra.
Qed.

Lemma linear_monotone_outside_refuted : exists (C C' : arr R) v v',
  valid_grid [Unif 0 1 2] /\ coefs_ok 1 [Unif 0 1 2] [] C /\ coefs_ok 1 [Unif 0 1 2] [] C' /\
  (forall idx, inb [2%Z] idx = true -> acell C (idx ++ []) <= acell C' (idx ++ [])) /\
  value_linear None [Unif 0 1 2] [] C [2] [] v /\ value_linear None [Unif 0 1 2] [] C' [2] [] v' /\ v' < v.
Proof.
  set (f := fun p : list R => 0). set (f' := fun p : list R => 1 - hd 0 p).
  set (S := fun h : list R -> R => mkArr [2%Z] (fun idx => h (node_at [Unif 0 1 2] idx))).
  assert (Hv : valid_grid [Unif 0 1 2]). { constructor; [|constructor]. split; cbn; [lia|lra]. }
  assert (HC : forall h, coefs_ok 1 [Unif 0 1 2] [] (S h)) by (intros h; split; auto).
  assert (A : forall h, multi_affine 1 h -> value_linear None [Unif 0 1 2] [] (S h) [2] [] (h [2])).
  { intros h Hh. apply eval_linear_multi_affine; auto.
    intros idx Hi. rewrite app_nil_r. reflexivity. }
  exists (S f), (S f'), (f [2]), (f' [2]). split; auto. split; auto. split; auto. split; [|split; [|split]].
  - intros idx Hi. destruct idx as [|i [|]]; cbn in Hi; try lia. unfold f, f'. cbn.
    assert (i = 0 \/ i = 1)%Z as [->| ->] by lia; lra.
  - apply A. intros pre x y t post HL. unfold f. ring.
  - apply A. intros [|u pre] x y t post HL; unfold f'; cbn in *; [ring|].
    rewrite app_length in HL. cbn in HL. lia.
  - unfold f, f'. cbn. lra.
Qed.

(** ** Shape along one axis *)
Lemma in_domain_app g1 p1 g2 p2 : in_domain g1 p1 -> in_domain g2 p2 -> in_domain (g1 ++ g2) (p1 ++ p2).
Proof. apply Forall2_app. Qed.

Lemma slice_le g1 g2 p1 p2 c c' : valid_grid g1 -> valid_grid g2 -> in_domain g1 p1 -> in_domain g2 p2 ->
  (forall i1 i2, inb (map gsize g1) i1 = true -> inb (map gsize g2) i2 = true -> c i1 i2 <= c' i1 i2) ->
  NS (dims 1 g1 (zeros g1) p1) (fun i1 => NS (dims 1 g2 (zeros g2) p2) (c i1)) <=
  NS (dims 1 g1 (zeros g1) p1) (fun i1 => NS (dims 1 g2 (zeros g2) p2) (c' i1)).
Proof.
  intros Hv1 Hv2 H1 H2 Hc. apply (VR1_mono g1 _ _ p1 Hv1 H1). intros i1 Hi1.
  apply (VR1_mono g2 _ _ p2 Hv2 H2). intros i2 Hi2. auto.
Qed.

Lemma valid_app g1 g g2 : valid_grid (g1 ++ g :: g2) -> valid_grid g1 /\ valid_dim g /\ valid_grid g2.
Proof.
  intros H. apply Forall_app in H as [H1 H2]. inversion H2; subst. auto.
Qed.

(** The function of one coordinate. *)
Definition line1 (g1 : list (gdim R)) (g2 : list (gdim R)) (c : list Z -> R) p1 p2 : Z -> R := slice 1 g1 g2 (zeros g1) (zeros g2) c p1 p2.
Lemma VR1_line g1 g g2 c p1 x p2 : length p1 = length g1 ->
  VR 1 (g1 ++ g :: g2) (zeros (g1 ++ g :: g2)) c (p1 ++ x :: p2) = wsum 1 0 g (line1 g1 g2 c p1 p2) x.
Proof.
  intros HL. rewrite zeros_app. change (zeros (g :: g2)) with (0%Z :: zeros g2).
  rewrite VR_slice by (auto using zeros_length). reflexivity.
Qed.

(** Straight line through the values at nodes i and i+1. *)
Definition chordW (g : gdim R) (W : Z -> R) (i : Z) (x : R) : R := (1 - lamC g i x) * W i + lamC g i x * W (i + 1)%Z.
Lemma wsum1_chord g W i x : valid_dim g -> admissible g i x -> wsum 1 0 g W x = chordW g W i x.
Proof.
  intros Hg Ha. unfold wsum, chordW.
  rewrite (zsum_ext _ _ (fun j => piece1 g j i x * W j)) by (intros; now rewrite (phi1_any g _ i x)).
  destruct Ha as [Ha _]. rewrite (zsum_window _ _ i 2); unfold csize; try lia.
  - rewrite zsum_2. unfold piece1. rewrite Z.add_0_r, !Z.eqb_refl. replace (i + 1 =? i)%Z with false by lia. ring.
  - intros j Hj Ho. unfold piece1. replace (j =? i)%Z with false by lia. replace (j =? i + 1)%Z with false by lia. ring.
Qed.
Definition slopeW (g : gdim R) (W : Z -> R) (i : Z) : R := (W (i + 1)%Z - W i) / (gnode g (i + 1) - gnode g i).
Lemma chord_slope g W i x : chordW g W i x = W i + slopeW g W i * (x - gnode g i).
Proof. unfold chordW, slopeW, lamC, Rdiv. ring. Qed.
Lemma chord_slope' g W i x : valid_dim g -> (0 <= i < gsize g - 1)%Z -> chordW g W i x = W (i + 1)%Z + slopeW g W i * (x - gnode g (i + 1)).
Proof. intros Hg Hi. pose proof (gnode_step g i Hg Hi). rewrite chord_slope. unfold slopeW. field. lra. Qed.

Lemma chord_step g W i x : valid_dim g -> (0 <= i < gsize g - 2)%Z ->
  chordW g W (i + 1) x - chordW g W i x = (slopeW g W (i + 1) - slopeW g W i) * (x - gnode g (i + 1)).
Proof. intros Hg Hi. rewrite (chord_slope' g W i) by (auto; lia). rewrite chord_slope. ring. Qed.

(** Nondecreasing values *)
Lemma wsum1_increasing g W : valid_dim g -> (forall i, (0 <= i < gsize g - 1)%Z -> W i <= W (i + 1)%Z) ->
  forall x y, x <= y -> wsum 1 0 g W x <= wsum 1 0 g W y.
Proof.
  intros Hg HW x y Hxy.
  assert (S : forall i, (0 <= i < gsize g - 1)%Z -> 0 <= slopeW g W i).
  { intros i Hi. pose proof (gnode_step g i Hg Hi). pose proof (HW i Hi). unfold slopeW. apply Rdiv_le_0_compat; lra. }
  pose proof (cellR_admissible g x Hg) as Ax. pose proof (cellR_admissible g y Hg) as Ay.
  set (cx := cellR g x) in *. set (cy := cellR g y) in *.
  rewrite (wsum1_chord g W cx x), (wsum1_chord g W cy y) by auto.
  destruct Ax as (X1 & X2 & X3). destruct Ay as (Y1 & Y2 & Y3).
  assert (M : forall d, (0 <= d)%Z -> forall i, (0 <= i)%Z -> (i + d <= gsize g - 1)%Z -> W i <= W (i + d)%Z).
  { apply (zsum_ind (fun d => forall i, (0 <= i)%Z -> (i + d <= gsize g - 1)%Z -> W i <= W (i + d)%Z)).
    - intros. rewrite Z.add_0_r. lra.
    - intros d Hd IH i Hi Hd'. pose proof (IH i Hi ltac:(lia)). pose proof (HW (i + d)%Z ltac:(lia)).
      replace (i + (d + 1))%Z with (i + d + 1)%Z by lia. lra. }
  destruct (Z.lt_trichotomy cx cy) as [L|[E|L]].
  - specialize (X3 ltac:(lia)). specialize (Y2 ltac:(lia)).
    rewrite (chord_slope' g W cx) by (auto; lia). rewrite (chord_slope g W cy).
    pose proof (S cx ltac:(lia)). pose proof (S cy ltac:(lia)).
    pose proof (M (cy - (cx + 1))%Z ltac:(lia) (cx + 1)%Z ltac:(lia) ltac:(lia)) as A.
    replace (cx + 1 + (cy - (cx + 1)))%Z with cy in A by lia. nra.
  - rewrite E in *. rewrite !chord_slope. pose proof (S cy ltac:(lia)). nra.
  - specialize (X2 ltac:(lia)). specialize (Y3 ltac:(lia)).
    pose proof (gnode_le g (cy + 1) cx Hg ltac:(lia) ltac:(lia) ltac:(lia)).
    assert (y = gnode g (cy + 1)) by lra. assert (x = gnode g cx) by lra.
    destruct (Z.eq_dec (cy + 1) cx) as [E|E].
    + rewrite (chord_slope' g W cy) by (auto; lia). rewrite (chord_slope g W cx). rewrite E in *.
      replace (y - gnode g cx) with 0 by lra. replace (x - gnode g cx) with 0 by lra. lra.
    + pose proof (gnode_lt g (cy + 1) cx Hg ltac:(lia) ltac:(lia) ltac:(lia)). lra.
Qed.

(** Nondecreasing slopes *)
Lemma chord_below g W : valid_dim g -> (forall i, (0 <= i < gsize g - 2)%Z -> slopeW g W i <= slopeW g W (i + 1)) ->
  forall i x, (0 <= i <= gsize g - 2)%Z -> chordW g W i x <= wsum 1 0 g W x.
Proof.
  intros Hg HS i x Hi. pose proof (cellR_admissible g x Hg) as Ax. set (c := cellR g x) in *.
  rewrite (wsum1_chord g W c x) by auto. destruct Ax as (X1 & X2 & X3).
  destruct (Z_le_gt_dec i c) as [L|L].
  - assert (G : forall d, (0 <= d)%Z -> (0 <= c - d)%Z -> chordW g W (c - d) x <= chordW g W c x).
    { apply (zsum_ind (fun d => (0 <= c - d)%Z -> chordW g W (c - d) x <= chordW g W c x)).
      - intros. rewrite Z.sub_0_r. lra.
      - intros d Hd IH Hc. specialize (IH ltac:(lia)). specialize (X2 ltac:(lia)).
        pose proof (chord_step g W (c - (d + 1)) x Hg ltac:(lia)) as E.
        pose proof (HS (c - (d + 1))%Z ltac:(lia)) as F.
        replace (c - (d + 1) + 1)%Z with (c - d)%Z in * by lia.
        pose proof (gnode_le g (c - d) c Hg ltac:(lia) ltac:(lia) ltac:(lia)).
        assert (0 <= (slopeW g W (c - d) - slopeW g W (c - (d + 1))) * (x - gnode g (c - d))) by (apply Rmult_le_pos; lra). lra. }
    specialize (G (c - i)%Z ltac:(lia)). replace (c - (c - i))%Z with i in G by lia. apply G. lia.
  - assert (G : forall d, (0 <= d)%Z -> (c + d <= gsize g - 2)%Z -> chordW g W (c + d) x <= chordW g W c x).
    { apply (zsum_ind (fun d => (c + d <= gsize g - 2)%Z -> chordW g W (c + d) x <= chordW g W c x)).
      - intros. rewrite Z.add_0_r. lra.
      - intros d Hd IH Hc. specialize (IH ltac:(lia)). specialize (X3 ltac:(lia)).
        pose proof (chord_step g W (c + d) x Hg ltac:(lia)) as E.
        pose proof (HS (c + d)%Z ltac:(lia)) as F.
        replace (c + (d + 1))%Z with (c + d + 1)%Z in * by lia.
        pose proof (gnode_le g (c + 1) (c + d + 1) Hg ltac:(lia) ltac:(lia) ltac:(lia)).
        assert (0 <= (slopeW g W (c + d + 1) - slopeW g W (c + d)) * (gnode g (c + d + 1) - x)) by (apply Rmult_le_pos; lra). lra. }
    specialize (G (i - c)%Z ltac:(lia)). replace (c + (i - c))%Z with i in G by lia. apply G. lia.
Qed.

Lemma wsum1_convex g W : valid_dim g -> (forall i, (0 <= i < gsize g - 2)%Z -> slopeW g W i <= slopeW g W (i + 1)) ->
  forall x y t, 0 <= t <= 1 -> wsum 1 0 g W ((1 - t) * x + t * y) <= (1 - t) * wsum 1 0 g W x + t * wsum 1 0 g W y.
Proof.
  intros Hg HS x y t Ht. set (z := (1 - t) * x + t * y).
  pose proof (cellR_admissible g z Hg) as Az. set (c := cellR g z) in *.
  rewrite (wsum1_chord g W c z) by auto. destruct Az as (Z1 & _ & _).
  pose proof (chord_below g W Hg HS c x Z1) as A. pose proof (chord_below g W Hg HS c y Z1) as B.
  rewrite chord_slope in *. unfold z. nra.
Qed.

(** The values returned, along one axis, for both statements. *)
Lemma axis_value mode g1 g g2 comps (C : arr R) p1 x p2 suf v :
  valid_grid (g1 ++ g :: g2) -> coefs_ok 1 (g1 ++ g :: g2) comps C -> inb comps suf = true ->
  in_domain g1 p1 -> in_domain g2 p2 -> (default_mode mode <> XConstant \/ in_dim g x) ->
  value_linear mode (g1 ++ g :: g2) comps C (p1 ++ x :: p2) suf v ->
  v = wsum 1 0 g (line1 g1 g2 (fun idx => acell C (idx ++ suf)) p1 p2)
        (match default_mode mode with XNearest => projR g x | _ => x end).
Proof.
  intros Hv HC Hs H1 H2 Hx H. apply value_linear_at in H.
  assert (HL : length (p1 ++ x :: p2) = length (g1 ++ g :: g2)).
  { rewrite !app_length. cbn. apply in_domain_length in H1, H2. lia. }
  apply value_at_none in H; auto; [|now left]. subst v.
  pose proof (in_domain_length _ _ H1) as L1.
  destruct (default_mode mode); cbn [xpoint].
  - assert (D : in_domain (g1 ++ g :: g2) (p1 ++ x :: p2)).
    { apply in_domain_app; auto. constructor; auto. destruct Hx; [congruence|auto]. }
    apply (proj2 (insideb_spec _ _ HL)) in D. rewrite D. now apply VR1_line.
  - now apply VR1_line.
  - unfold proj_grid. rewrite map2_app by auto. cbn [map2]. fold (proj_grid g1 p1). fold (proj_grid g2 p2).
    rewrite !proj_inside by auto. now apply VR1_line.
Qed.

Lemma projR_mono g x y : x <= y -> projR g x <= projR g y.
Proof. intros H. unfold projR, Rmax, Rmin. repeat destruct Rle_dec; lra. Qed.

Lemma linear_increasing mode g1 g g2 comps (C : arr R) p1 p2 suf x y v w :
  valid_grid (g1 ++ g :: g2) -> coefs_ok 1 (g1 ++ g :: g2) comps C -> inb comps suf = true ->
  in_domain g1 p1 -> in_domain g2 p2 -> (default_mode mode <> XConstant \/ in_dim g x /\ in_dim g y) ->
  increasing_along g1 g g2 C suf -> x <= y ->
  value_linear mode (g1 ++ g :: g2) comps C (p1 ++ x :: p2) suf v ->
  value_linear mode (g1 ++ g :: g2) comps C (p1 ++ y :: p2) suf w -> v <= w.
Proof.
  intros Hv HC Hs H1 H2 Hm HI Hxy Hx Hy.
  apply axis_value in Hx; auto; [|tauto]. apply axis_value in Hy; auto; [|tauto]. subst v w.
  destruct (valid_app _ _ _ Hv) as (V1 & Vg & V2).
  apply wsum1_increasing; auto.
  - intros i Hi. apply slice_le; auto.
  - destruct (default_mode mode); auto. now apply projR_mono.
Qed.

Lemma NS_slope g1 g2 p1 p2 (c : list Z -> R) i j d : d <> 0 ->
  (line1 g1 g2 c p1 p2 i - line1 g1 g2 c p1 p2 j) / d =
  NS (dims 1 g1 (zeros g1) p1) (fun i1 => NS (dims 1 g2 (zeros g2) p2) (fun i2 => (c (i1 ++ i :: i2) - c (i1 ++ j :: i2)) / d)).
Proof.
  intros Hd. unfold line1, slice. set (D1 := dims 1 g1 (zeros g1) p1). set (D2 := dims 1 g2 (zeros g2) p2).
  transitivity (NS D1 (fun i1 => / d * (NS D2 (fun i2 => c (i1 ++ i :: i2)) + -1 * NS D2 (fun i2 => c (i1 ++ j :: i2))))).
  - rewrite NS_scal, NS_plus, NS_scal. field. auto.
  - apply NS_ext. intros i1 _. rewrite <- NS_scal, <- NS_plus, <- NS_scal. apply NS_ext. intros. field. auto.
Qed.

Lemma linear_convex mode g1 g g2 comps (C : arr R) p1 p2 suf x y t u v w :
  valid_grid (g1 ++ g :: g2) -> coefs_ok 1 (g1 ++ g :: g2) comps C -> inb comps suf = true ->
  in_domain g1 p1 -> in_domain g2 p2 -> (default_mode mode = XLinear \/ in_dim g x /\ in_dim g y) ->
  convex_along g1 g g2 C suf -> 0 <= t <= 1 ->
  value_linear mode (g1 ++ g :: g2) comps C (p1 ++ x :: p2) suf u ->
  value_linear mode (g1 ++ g :: g2) comps C (p1 ++ y :: p2) suf v ->
  value_linear mode (g1 ++ g :: g2) comps C (p1 ++ ((1 - t) * x + t * y) :: p2) suf w ->
  w <= (1 - t) * u + t * v.
Proof.
  intros Hv HC Hs H1 H2 Hm HI Ht Hx Hy Hz.
  assert (Dz : in_dim g x /\ in_dim g y -> in_dim g ((1 - t) * x + t * y)) by (unfold in_dim; nra).
  apply axis_value in Hx; auto; [|destruct Hm as [->|]; [left; congruence|tauto]].
  apply axis_value in Hy; auto; [|destruct Hm as [->|]; [left; congruence|tauto]].
  apply axis_value in Hz; auto; [|destruct Hm as [->|]; [left; congruence|tauto]]. subst u v w.
  destruct (valid_app _ _ _ Hv) as (V1 & Vg & V2).
  assert (P : forall r, in_dim g r -> projR g r = r).
  { intros r [R1 R2]. unfold projR. rewrite Rmin_left, Rmax_right; auto. }
  assert (K : forall r, (r = x \/ r = y \/ r = (1 - t) * x + t * y) -> match default_mode mode with XNearest => projR g r | _ => r end = r).
  { intros r Hr. destruct Hm as [->|Hm]; auto. destruct (default_mode mode); auto. apply P. destruct Hr as [->|[->| ->]]; tauto. }
  rewrite !K by tauto.
  apply wsum1_convex; auto.
  intros i Hi. pose proof (gnode_step g i Vg ltac:(lia)). pose proof (gnode_step g (i + 1) Vg ltac:(lia)).
  unfold slopeW. rewrite !NS_slope by lra. apply slice_le; auto.
  intros i1 i2 I1 I2. replace (i + 1 + 1)%Z with (i + 2)%Z by lia. apply HI; auto.
Qed.

(** ** Grids with the same nodes *)
Lemma same_admissible g g' c x : same_nodes g g' -> admissible g c x -> admissible g' c x.
Proof.
  intros [S N] (A & B & D). split; [lia|]. split; intros; rewrite <- N by lia; auto.
  apply D. lia.
Qed.

Lemma same_phi g g' x i : valid_dim g -> valid_dim g' -> same_nodes g g' -> phi 1 0 g x i = phi 1 0 g' x i.
Proof.
  intros Hg Hg' S. pose proof (cellR_admissible g x Hg) as A.
  rewrite (phi1_any g i _ x Hg A), (phi1_any g' i _ x Hg' (same_admissible _ _ _ _ S A)).
  destruct S as [_ N]. destruct A as [A _]. unfold piece1, lamC. rewrite !N by lia. reflexivity.
Qed.

Lemma same_VR grid grid' : Forall2 same_nodes grid grid' -> valid_grid grid -> valid_grid grid' ->
  forall c pt, VR 1 grid (zeros grid) c pt = VR 1 grid' (zeros grid') c pt.
Proof.
  intros H. induction H as [|g g' grid grid' S H IH]; intros Hv Hv' c [|x pt]; auto.
  inversion Hv; inversion Hv'; subst. rewrite !VR1_cons. replace (csize 1 g') with (csize 1 g) by (unfold csize; destruct S; lia).
  apply zsum_ext. intros i Hi. rewrite (same_phi g g') by auto. rewrite IH by auto. reflexivity.
Qed.

Lemma same_ends g g' : valid_dim g -> same_nodes g g' -> glo g = glo g' /\ ghi g = ghi g'.
Proof. intros [Hn _] [S N]. unfold glo, ghi. rewrite <- S, <- !N by lia. auto. Qed.

Lemma same_xpoint xm grid grid' : Forall2 same_nodes grid grid' -> valid_grid grid -> forall pt, xpoint xm grid pt = xpoint xm grid' pt.
Proof.
  intros H Hv pt. destruct xm; cbn; auto.
  - replace (insideb grid' pt) with (insideb grid pt); auto. revert pt. unfold insideb.
    induction H as [|g g' grid grid' S H IH]; intros [|x pt]; auto. inversion Hv; subst. cbn.
    destruct (same_ends g g') as [-> ->]; auto. f_equal. auto.
  - f_equal. revert pt. induction H as [|g g' grid grid' S H IH]; intros [|x pt]; auto. inversion Hv; subst. cbn.
    unfold projR. destruct (same_ends g g') as [-> ->]; auto. f_equal. auto.
Qed.

Lemma same_sizes grid grid' : Forall2 same_nodes grid grid' -> map gsize grid = map gsize grid'.
Proof. induction 1 as [|g g' ? ? [S _]]; cbn; auto. now f_equal. Qed.
Lemma coefs_sizes k (grid grid' : list (gdim R)) comps C : map gsize grid = map gsize grid' -> coefs_ok k grid comps C -> coefs_ok k grid' comps C.
Proof.
  intros E [H1 H2]. split; auto. rewrite H1. f_equal. clear -E. revert grid' E.
  induction grid; intros [|]; cbn; intros E; try discriminate; auto. inversion E. unfold csize at 1 3. rewrite H0. f_equal. auto.
Qed.

Lemma linear_same_nodes mode grid grid' comps (C : arr R) pt suf v :
  valid_grid grid -> valid_grid grid' -> Forall2 same_nodes grid grid' ->
  coefs_ok 1 grid comps C -> inb comps suf = true -> length pt = length grid ->
  value_linear mode grid comps C pt suf v <-> value_linear mode grid' comps C pt suf v.
Proof.
  intros Hv Hv' HS HC Hs HL. rewrite !value_linear_at.
  assert (HL' : length grid = length grid') by (eapply Forall2_length; exact HS).
  rewrite !value_at_none; auto; try (now left); try lia.
  2:{ eapply coefs_sizes; [|exact HC]. now apply same_sizes. }
  rewrite (same_xpoint _ grid grid') by auto. destruct (xpoint _ _ _); [|tauto].
  rewrite (same_VR grid grid') by auto. tauto.
Qed.

Lemma linspace_same a b n : valid_dim (Unif a b n) ->
  let gc := map (fun i => a + IZR i * ((b - a) / (IZR n - 1))) (zrange n) in
  valid_dim (Nonunif gc) /\ same_nodes (Unif a b n) (Nonunif gc).
Proof.
  intros H gc. pose proof (proj1 H) as Hn. cbn in Hn.
  assert (L : zlen gc = n). { unfold gc, zlen. rewrite map_length, zrange_length. lia. }
  assert (N : forall i, (0 <= i < n)%Z -> nth (Z.to_nat i) gc 0 = gnode (Unif a b n) i).
  { intros i Hi. unfold gc. set (f := fun i => a + IZR i * ((b - a) / (IZR n - 1))). rewrite (nth_indep _ 0 (f 0%Z)).
    2:{ rewrite map_length, zrange_length. lia. }
    rewrite (map_nth f). rewrite zrange_nth by lia. reflexivity. }
  split.
  - split; cbn [gsize]; rewrite L; auto. intros i Hi. rewrite !N by lia. now apply gnode_step.
  - split; cbn [gsize]; [lia|]. intros i Hi. cbn [gnode]. symmetry. now apply N.
Qed.

(** ** Units *)
Lemma rescale_size st g : gsize (rescale st g) = gsize g.
Proof. destruct g; cbn; auto. unfold zlen. now rewrite map_length. Qed.
Lemma rescale_node st g i : valid_dim g -> (0 <= i < gsize g)%Z -> gnode (rescale st g) i = fst st * gnode g i + snd st.
Proof.
  intros Hg Hi. destruct g as [a b n|gc]; cbn.
  - pose proof (gsize_IZR _ Hg). cbn in *. field. lra.
  - rewrite (nth_indep _ 0 ((fun x => fst st * x + snd st) 0)). now rewrite (map_nth (fun x => fst st * x + snd st)).
    rewrite map_length. cbn in Hi. unfold zlen in Hi. lia.
Qed.
Lemma rescale_valid st g : 0 < fst st -> valid_dim g -> valid_dim (rescale st g).
Proof.
  intros Hs H. split; [rewrite rescale_size; apply H|]. destruct g as [a b n|gc]; cbn.
  - destruct H as [_ H]. nra.
  - intros i Hi. assert (S : zlen (map (fun x => fst st * x + snd st) gc) = zlen gc) by (unfold zlen; now rewrite map_length).
    rewrite S in Hi. pose proof (gnode_step (Nonunif gc) i H Hi) as G.
    pose proof (rescale_node st (Nonunif gc) i H ltac:(cbn; lia)) as E1.
    pose proof (rescale_node st (Nonunif gc) (i + 1) H ltac:(cbn; lia)) as E2. cbn in *. nra.
Qed.
Lemma rescale_admissible st g c x : 0 < fst st -> valid_dim g -> admissible g c x -> admissible (rescale st g) c (rescale_pt st x).
Proof.
  intros Hs Hg (A & B & D). split; [rewrite rescale_size; auto|]. unfold rescale_pt. split; intros H.
  - rewrite rescale_node by (auto; lia). specialize (B H). nra.
  - rewrite rescale_size in H. rewrite rescale_node by (auto; lia). specialize (D H). nra.
Qed.
Lemma rescale_lamC st g c x : 0 < fst st -> valid_dim g -> (0 <= c <= gsize g - 2)%Z -> lamC (rescale st g) c (rescale_pt st x) = lamC g c x.
Proof.
  intros Hs Hg Hc. unfold lamC, rescale_pt. rewrite !rescale_node by (auto; lia). pose proof (gnode_step g c Hg ltac:(lia)). field. split; nra.
Qed.

Lemma dpiece3_any a b n i c x : let g := Unif a b n in valid_dim g -> admissible g c x -> phi 3 1 g x i = dpiece3 g i c x.
Proof.
  intros g Hg Ha. apply (glue_any g (fun x => phi 3 1 g x i) (dpiece3 g i)); auto.
  - intros y. now apply phi3_dpiece.
  - intros c' Hc'. now apply dpiece3_match.
Qed.

Lemma rescale_phi k st g x i : (k = 1 \/ k = 3)%Z -> 0 < fst st -> valid_dim g ->
  phi k 0 (rescale st g) (rescale_pt st x) i = phi k 0 g x i.
Proof.
  intros Hk Hs Hg. pose proof (cellR_admissible g x Hg) as A. pose proof (rescale_admissible st g _ x Hs Hg A) as A'.
  pose proof (rescale_valid st g Hs Hg) as Hg'. destruct Hk as [->| ->].
  - rewrite (phi1_any _ i _ _ Hg A), (phi1_any _ i _ _ Hg' A'). unfold piece1. rewrite rescale_lamC by (auto; apply A). reflexivity.
  - rewrite (phi3_any _ i _ _ Hg A), (phi3_any _ i _ _ Hg' A'). unfold piece3. rewrite rescale_lamC by (auto; apply A). reflexivity.
Qed.
Lemma rescale_dphi st a b n x i : 0 < fst st -> valid_dim (Unif a b n) ->
  phi 3 1 (rescale st (Unif a b n)) (rescale_pt st x) i = / fst st * phi 3 1 (Unif a b n) x i.
Proof.
  intros Hs Hg. set (g := Unif a b n) in *. pose proof (cellR_admissible g x Hg) as A. pose proof (rescale_admissible st g _ x Hs Hg A) as A'.
  pose proof (rescale_valid st g Hs Hg) as Hg'. cbn [rescale g] in *. fold g in A, A'.
  pose proof (dpiece3_any a b n i _ x Hg A) as E1. pose proof (dpiece3_any _ _ n i _ _ Hg' A') as E2. cbv zeta in E1, E2.
  fold g in E1. change (Unif (fst st * a + snd st) (fst st * b + snd st) n) with (rescale st g) in *. rewrite E1, E2.
  unfold dpiece3. rewrite rescale_lamC by (auto; apply A). destruct A as [A _].
  rewrite !rescale_node by (auto; lia). pose proof (gnode_step g (cellR g x) Hg ltac:(lia)).
  destruct (_ && _); [|ring]. field. split; nra.
Qed.

Lemma rescale_VR k sts grid : (k = 1 \/ k = 3)%Z -> Forall2 (fun st g => 0 < fst st) sts grid -> valid_grid grid ->
  forall c pt, VR k (map2 rescale sts grid) (zeros (map2 rescale sts grid)) c (map2 rescale_pt sts pt) = VR k grid (zeros grid) c pt.
Proof.
  intros Hk H. induction H as [|st g sts grid Hs H IH]; intros Hv c [|x pt]; auto.
  inversion Hv; subst. unfold VR. cbn [map2 zeros map]. rewrite !dims_cons. cbn [NS].
  replace (csize k (rescale st g)) with (csize k g) by (unfold csize; now rewrite rescale_size).
  apply zsum_ext. intros i Hi. rewrite rescale_phi by auto. f_equal. apply IH; auto.
Qed.

Lemma rescale_ends st g : valid_dim g -> glo (rescale st g) = rescale_pt st (glo g) /\ ghi (rescale st g) = rescale_pt st (ghi g).
Proof. intros Hg. unfold glo, ghi. rewrite rescale_size. pose proof (proj1 Hg). rewrite !rescale_node by (auto; lia). auto. Qed.

Lemma rescale_xpoint xm sts grid : Forall2 (fun st g => 0 < fst st) sts grid -> valid_grid grid -> forall pt,
  xpoint xm (map2 rescale sts grid) (map2 rescale_pt sts pt) = option_map (map2 rescale_pt sts) (xpoint xm grid pt).
Proof.
  intros H Hv pt. destruct xm; cbn; auto.
  - replace (insideb (map2 rescale sts grid) (map2 rescale_pt sts pt)) with (insideb grid pt); [now destruct (insideb grid pt)|].
    unfold insideb. revert pt. induction H as [|st g sts grid Hs H IH]; intros [|x pt]; auto. inversion Hv; subst. cbn.
    destruct (rescale_ends st g) as [-> ->]; auto. unfold rescale_pt. f_equal; auto.
    f_equal.
    + destruct (Rle_bool_spec (glo g) x), (Rle_bool_spec (fst st * glo g + snd st) (fst st * x + snd st)); auto; nra.
    + destruct (Rle_bool_spec x (ghi g)), (Rle_bool_spec (fst st * x + snd st) (fst st * ghi g + snd st)); auto; nra.
  - f_equal. revert pt. induction H as [|st g sts grid Hs H IH]; intros [|x pt]; auto. inversion Hv; subst. cbn.
    f_equal; [|apply IH; auto]. unfold projR. destruct (rescale_ends st g) as [-> ->]; auto. unfold rescale_pt.
    unfold Rmax, Rmin. repeat destruct Rle_dec; auto; nra.
Qed.

Lemma rescale_grid sts grid : Forall2 (fun st g => 0 < fst st) sts grid -> valid_grid grid ->
  valid_grid (map2 rescale sts grid) /\ map gsize (map2 rescale sts grid) = map gsize grid.
Proof.
  intros H. induction H as [|st g sts grid Hs H IH]; intros Hv; cbn; auto. inversion Hv; subst.
  destruct (IH H3) as [A B]. split. constructor; auto. now apply rescale_valid. rewrite B. f_equal. apply rescale_size.
Qed.
Lemma rescale_kgrid k sts grid : Forall2 (fun st (g : gdim R) => 0 < fst st) sts grid -> kgrid_ok k grid -> kgrid_ok k (map2 rescale sts grid).
Proof.
  intros H [->|[-> Hu]]; [now left|right]. split; auto. induction H as [|st g sts grid Hs H IH]; cbn; [constructor|].
  inversion Hu; subst. constructor; [destruct g; cbn in *; tauto|apply IH; auto].
Qed.

Lemma value_rescale k xm sts grid comps (C : arr R) pt suf v :
  valid_grid grid -> kgrid_ok k grid -> coefs_ok k grid comps C -> inb comps suf = true -> length pt = length grid ->
  Forall2 (fun st (g : gdim R) => 0 < fst st) sts grid ->
  value_at k None xm grid comps C pt suf v <->
  value_at k None xm (map2 rescale sts grid) comps C (map2 rescale_pt sts pt) suf v.
Proof.
  intros Hv Hk HC Hs HL H. destruct (rescale_grid sts grid H Hv) as [Hv' E]. assert (LS : length sts = length grid) by (eapply Forall2_length; exact H).
  rewrite !value_at_none; auto.
  - rewrite rescale_xpoint by auto. destruct (xpoint xm grid pt) as [q|] eqn:X; cbn; [|tauto].
    rewrite rescale_VR by (auto; eapply kgrid_k; eauto). tauto.
  - now apply rescale_kgrid.
  - eapply coefs_sizes; [symmetry; exact E|exact HC].
  - rewrite !map2_length; lia.
Qed.

Lemma rescale_dVR sts grid : Forall2 (fun st g => 0 < fst st) sts grid -> valid_grid grid -> all_uniform grid ->
  forall oo c pt, length oo = length grid -> length pt = length grid -> List.Forall (fun l => 0 <= l <= 1)%Z oo ->
  VR 3 (map2 rescale sts grid) oo c (map2 rescale_pt sts pt) * unit_factor sts oo = VR 3 grid oo c pt.
Proof.
  intros H. induction H as [|st g sts grid Hs H IH]; intros Hv Hu [|o oo] c [|x pt] HL HP Ho; try discriminate; cbn [map2 unit_factor]; try (unfold VR; cbn; ring).
  inversion Hv; inversion Hu; inversion Ho; subst. destruct g as [a b n|]; [|cbn in *; tauto].
  unfold VR. rewrite !dims_cons. cbn [NS]. replace (csize 3 (rescale st (Unif a b n))) with (csize 3 (Unif a b n)) by reflexivity.
  rewrite <- zsum_scal_r. apply zsum_ext. intros i Hi.
  pose proof (IH ltac:(auto) ltac:(auto) oo (fun idx => c (i :: idx)) pt ltac:(cbn in HL; lia) ltac:(cbn in HP; lia) ltac:(auto)) as E.
  unfold VR in E. rewrite <- E. clear E. set (A := NS _ _). set (U := unit_factor sts oo).
  assert (o = 0 \/ o = 1)%Z as [->| ->] by lia.
  - rewrite rescale_phi by auto. cbn. ring.
  - rewrite rescale_dphi by auto. rewrite powerRZ_1. field. lra.
Qed.

Lemma unit_factor_pos sts : List.Forall (fun st => 0 < fst st) sts -> forall oo, 0 < unit_factor sts oo.
Proof.
  induction 1 as [|st sts Hs H IH]; intros [|o oo]; cbn; try lra. apply Rmult_lt_0_compat; auto. now apply powerRZ_lt.
Qed.

Lemma diff_sizes k grid grid' orders : length grid = length grid' -> diff_ok k grid orders -> diff_ok k grid' orders.
Proof.
  intros E [H1 H2]. split; auto. destruct orders as [os|]; auto. cbn in *. destruct H1 as [H1 H3]. split; auto.
  eapply Forall_impl; [|exact H3]. intros o Ho. cbn in *. unfold zlen in *. lia.
Qed.

Lemma gradient_rescale xm sts grid comps (C : arr R) pt os j oo comp v :
  valid_grid grid -> all_uniform grid -> coefs_ok 3 grid comps C -> diff_ok 3 grid (Some os) ->
  inb comps comp = true -> length pt = length grid -> nth_error os j = Some oo ->
  Forall2 (fun st (g : gdim R) => 0 < fst st) sts grid ->
  value_at 3 (Some os) xm grid comps C pt (comp ++ [Z.of_nat j]) v ->
  value_at 3 (Some os) xm (map2 rescale sts grid) comps C (map2 rescale_pt sts pt) (comp ++ [Z.of_nat j]) (v / unit_factor sts oo).
Proof.
  intros Hv Hu HC Hd Hs HL Hj H. destruct (rescale_grid sts grid H Hv) as [Hv' E].
  assert (LS : length sts = length grid) by (eapply Forall2_length; exact H).
  assert (LG : length (map2 rescale sts grid) = length grid) by (rewrite map2_length; lia).
  assert (Hk : kgrid_ok 3 grid) by (right; auto).
  rewrite !(value_at_diff 3 xm _ comps C _ os j oo comp); auto.
  - intros ->. rewrite rescale_xpoint by auto. destruct (xpoint xm grid pt) as [q|] eqn:X; cbn; [|unfold Rdiv; ring].
    assert (Hoo : length oo = length grid /\ List.Forall (fun l => 0 <= l <= 1)%Z oo).
    { destruct Hd as [[_ D1] D2]. apply nth_error_In in Hj. rewrite Forall_forall in D1, D2. specialize (D1 oo Hj). specialize (D2 oo Hj).
      split; [unfold zlen in D1; lia|]. eapply Forall_impl; [|exact D2]. cbn. intros l [A B]. specialize (B eq_refl). lia. }
    rewrite <- (rescale_dVR sts grid H Hv Hu oo _ q) by (try tauto; eapply xpoint_length; eauto). field.
    apply Rgt_not_eq. apply unit_factor_pos. clear -H. induction H; constructor; auto.
  - now apply rescale_kgrid.
  - eapply coefs_sizes; [symmetry; exact E|exact HC].
  - eapply diff_sizes; [symmetry; exact LG|exact Hd].
  - rewrite !map2_length; lia.
Qed.

(** ** Exchanged axes *)
Lemma NS_exchange l1 n w m u l2 (c c' : list Z -> R) :
  (forall i1 i j i2, inb (map fst l1) i1 = true -> (0 <= i < n)%Z -> (0 <= j < m)%Z -> inb (map fst l2) i2 = true ->
    c' (i1 ++ j :: i :: i2) = c (i1 ++ i :: j :: i2)) ->
  NS (l1 ++ (m, u) :: (n, w) :: l2) c' = NS (l1 ++ (n, w) :: (m, u) :: l2) c.
Proof.
  intros H. rewrite !NS_app. apply NS_ext. intros i1 H1. cbn [NS].
  transitivity (zsum m (fun j => zsum n (fun i => u j * (w i * NS l2 (fun i2 => c (i1 ++ i :: j :: i2)))))).
  - apply zsum_ext. intros j Hj. rewrite <- zsum_scal. apply zsum_ext. intros i Hi. do 2 f_equal.
    apply NS_ext. intros i2 H2. auto.
  - rewrite zsum_swap. apply zsum_ext. intros i _. rewrite <- zsum_scal. apply zsum_ext. intros j _. ring.
Qed.

Lemma VR_exchange k g1 g h g2 o1 l m o2 c c' p1 x y p2 : length o1 = length g1 -> length p1 = length g1 ->
  length o2 = length g2 -> length p2 = length g2 ->
  (forall i1 i j i2, inb (map (csize k) g1) i1 = true -> (0 <= i < csize k g)%Z -> (0 <= j < csize k h)%Z -> inb (map (csize k) g2) i2 = true ->
    c' (i1 ++ j :: i :: i2) = c (i1 ++ i :: j :: i2)) ->
  VR k (g1 ++ h :: g :: g2) (o1 ++ m :: l :: o2) c' (p1 ++ y :: x :: p2) = VR k (g1 ++ g :: h :: g2) (o1 ++ l :: m :: o2) c (p1 ++ x :: y :: p2).
Proof.
  intros LO LP LO2 LP2 H. unfold VR. rewrite !dims_app by auto. rewrite !dims_cons. apply NS_exchange.
  intros i1 i j i2 H1 Hi Hj H2. rewrite dims_fst in H1, H2 by auto. auto.
Qed.

Lemma xpoint_exchange xm g1 g h g2 p1 x y p2 : length p1 = length g1 -> length p2 = length g2 ->
  (xpoint xm (g1 ++ g :: h :: g2) (p1 ++ x :: y :: p2) = None /\ xpoint xm (g1 ++ h :: g :: g2) (p1 ++ y :: x :: p2) = None) \/
  exists q1 x' y' q2, length q1 = length g1 /\ length q2 = length g2 /\
   xpoint xm (g1 ++ g :: h :: g2) (p1 ++ x :: y :: p2) = Some (q1 ++ x' :: y' :: q2) /\
   xpoint xm (g1 ++ h :: g :: g2) (p1 ++ y :: x :: p2) = Some (q1 ++ y' :: x' :: q2).
Proof.
  intros LP LP2. destruct xm; cbn.
  - unfold insideb. rewrite !combine_app by auto. rewrite !forallb_app. cbn.
    destruct (forallb _ (combine g1 p1)); cbn [andb]; [|left; split; reflexivity].
    set (A := Rle_bool (glo g) x && Rle_bool x (ghi g)). set (B := Rle_bool (glo h) y && Rle_bool y (ghi h)).
    destruct A, B; cbn [andb]; try (left; split; reflexivity). destruct (forallb _ (combine g2 p2)); [|left; split; reflexivity].
    right. exists p1, x, y, p2. auto.
  - right. exists p1, x, y, p2. auto.
  - right. exists (proj_grid g1 p1), (projR g x), (projR h y), (proj_grid g2 p2). split; [|split].
    1, 2: unfold proj_grid; rewrite map2_length; lia.
    unfold proj_grid. rewrite !map2_app by auto. split; reflexivity.
Qed.

Lemma valid_exchange g1 g h g2 : valid_grid (g1 ++ g :: h :: g2) -> valid_grid (g1 ++ h :: g :: g2).
Proof.
  intros H. apply Forall_app in H as [H1 H2]. inversion H2 as [|? ? A B]; inversion B; subst. apply Forall_app; split; auto.
Qed.
Lemma kgrid_exchange k (g1 : list (gdim R)) g h g2 : kgrid_ok k (g1 ++ g :: h :: g2) -> kgrid_ok k (g1 ++ h :: g :: g2).
Proof.
  intros [->|[-> H]]; [now left|right; split; auto].
  apply Forall_app in H as [H1 H2]. inversion H2 as [|? ? A B]; inversion B; subst. apply Forall_app; split; auto.
Qed.

Lemma value_exchange k xm g1 g h g2 comps (C C' : arr R) p1 x y p2 suf v :
  let grid := g1 ++ g :: h :: g2 in let grid' := g1 ++ h :: g :: g2 in
  valid_grid grid -> kgrid_ok k grid -> coefs_ok k grid comps C -> coefs_ok k grid' comps C' -> inb comps suf = true ->
  length p1 = length g1 -> length p2 = length g2 ->
  transposed (csize k) g1 g h g2 C C' suf ->
  value_at k None xm grid comps C (p1 ++ x :: y :: p2) suf v <->
  value_at k None xm grid' comps C' (p1 ++ y :: x :: p2) suf v.
Proof.
  intros grid grid' Hv Hk HC HC' Hs L1 L2 H. unfold grid, grid' in *.
  pose proof (valid_exchange _ _ _ _ Hv) as Hv'. pose proof (kgrid_exchange _ _ _ _ _ Hk) as Hk'.
  rewrite !value_at_none; auto; try (rewrite !app_length; cbn; lia).
  destruct (xpoint_exchange xm g1 g h g2 p1 x y p2 L1 L2) as [[-> ->]|(q1 & x' & y' & q2 & LQ & LQ2 & -> & ->)]; [tauto|].
  rewrite !zeros_app. cbn [zeros map].
  rewrite (VR_exchange k g1 g h g2 (zeros g1) 0 0 _ (fun idx => acell C (idx ++ suf)) (fun idx => acell C' (idx ++ suf))); auto using zeros_length.
  tauto.
Qed.

Lemma gradient_exchange k xm g1 g h g2 comps (C C' : arr R) p1 x y p2 os os' jj jj' o1 l m o2 comp v :
  let grid := g1 ++ g :: h :: g2 in let grid' := g1 ++ h :: g :: g2 in
  valid_grid grid -> kgrid_ok k grid -> coefs_ok k grid comps C -> coefs_ok k grid' comps C' -> inb comps comp = true ->
  length p1 = length g1 -> length p2 = length g2 -> length o1 = length g1 -> length o2 = length g2 ->
  diff_ok k grid (Some os) -> diff_ok k grid' (Some os') ->
  nth_error os jj = Some (o1 ++ l :: m :: o2) -> nth_error os' jj' = Some (o1 ++ m :: l :: o2) ->
  transposed (csize k) g1 g h g2 C C' comp ->
  value_at k (Some os) xm grid comps C (p1 ++ x :: y :: p2) (comp ++ [Z.of_nat jj]) v <->
  value_at k (Some os') xm grid' comps C' (p1 ++ y :: x :: p2) (comp ++ [Z.of_nat jj']) v.
Proof.
  intros grid grid' Hv Hk HC HC' Hs L1 L2 LO LO2 D D' J J' H. unfold grid, grid' in *.
  rewrite (value_at_diff k xm (g1 ++ g :: h :: g2) comps C (p1 ++ x :: y :: p2) os jj _ comp v Hv Hk HC D ltac:(rewrite !app_length; cbn; lia) Hs J).
  rewrite (value_at_diff k xm (g1 ++ h :: g :: g2) comps C' (p1 ++ y :: x :: p2) os' jj' _ comp v (valid_exchange _ _ _ _ Hv) (kgrid_exchange _ _ _ _ _ Hk) HC' D' ltac:(rewrite !app_length; cbn; lia) Hs J').
  destruct (xpoint_exchange xm g1 g h g2 p1 x y p2 L1 L2) as [[-> ->]|(q1 & x' & y' & q2 & LQ & LQ2 & -> & ->)]; [tauto|].
  rewrite (VR_exchange k g1 g h g2 o1 l m o2 (fun idx => acell C (idx ++ comp)) (fun idx => acell C' (idx ++ comp))); auto.
  tauto.
Qed.

(** ** Continuous derivatives *)
Lemma edbsp_derive_cont j t : continuity_pt (edbsp j) t.
Proof.
  assert (D : forall s, continuity_pt (dbsp j) s) by (intros s; eapply is_derive_continuity; apply dbsp_derive).
  (* edbsp j t = dbsp j (clamp t) *)
  intros eps He. destruct (D (Rmax 0 (Rmin t 1)) eps He) as [d [Hd H]]. exists d. split; auto.
  intros s [Hs1 Hs2].
  assert (E : forall r, edbsp j r = dbsp j (Rmax 0 (Rmin r 1))).
  { intros r. unfold edbsp. destruct (Rlt_bool_spec r 0) as [A|A].
    - rewrite Rmin_left, Rmax_left by lra. auto.
    - destruct (Rlt_bool_spec 1 r) as [B|B].
      + rewrite Rmin_right, Rmax_right by lra. auto.
      + rewrite Rmin_left, Rmax_right by lra. auto. }
  rewrite !E. destruct (Req_dec (Rmax 0 (Rmin t 1)) (Rmax 0 (Rmin s 1))) as [Q|Q].
  - rewrite Q. unfold R_dist; cbn. unfold R_dist. rewrite Rminus_diag_eq, Rabs_R0; auto.
  - apply H. split. split; [exact I|auto]. cbn in *. unfold R_dist in *. revert Hs2.
    unfold Rmax, Rmin, Rabs. repeat destruct Rle_dec; repeat destruct Rcase_abs; lra.
Qed.

Lemma dphi3_continuous a b n i x : valid_dim (Unif a b n) -> continuity_pt (fun x => phi 3 1 (Unif a b n) x i) x.
Proof.
  intros H. set (g := Unif a b n).
  apply (glued_continuous g (fun x => phi 3 1 g x i) (dpiece3 g i) H).
  - intros y. now apply phi3_dpiece.
  - intros c Hc. now apply dpiece3_match.
  - intros c y. unfold dpiece3. destruct (_ && _).
    + apply (continuity_pt_mult (fun y => edbsp (i - c) (lamC g c y)) (fun _ => / (gnode g (c + 1) - gnode g c))).
      * apply (continuity_pt_comp (lamC g c) (edbsp (i - c))).
        -- apply (is_derive_continuity _ _ (/ (gnode g (c + 1) - gnode g c))). unfold lamC.
           generalize (gnode g c), (gnode g (c + 1)). intros u w. auto_derive; auto. unfold Rdiv. ring.
        -- apply edbsp_derive_cont.
      * apply continuity_pt_const. intros ? ?; reflexivity.
    + apply continuity_pt_const. intros ? ?; reflexivity.
Qed.

Lemma VR3_cont grid : valid_grid grid -> all_uniform grid -> forall oo c pt, length oo = length grid -> List.Forall (fun l => 0 <= l <= 1)%Z oo ->
  length pt = length grid -> cont pt (VR 3 grid oo c).
Proof.
  intros Hv. induction Hv as [|g grid Hg Hv IH]; intros Hu [|o oo] c [|x pt] HO Ho HL; try discriminate.
  - intros P HP. exists 1. split; [lra|]. intros q Hq. inversion Hq; subst. exact (locally_singleton _ _ HP).
  - inversion Hu; inversion Ho; subst. intros P HP.
    assert (Hc : cont (x :: pt) (fun q => zsum (csize 3 g) (fun i => phi 3 o g (hd 0 q) i *
       VR 3 grid oo (fun idx => c (i :: idx)) (tl q)))).
    { apply cont_zsum. intros i Hi. apply cont_mult.
      - apply (cont_head x pt (fun y => phi 3 o g y i)). assert (o = 0 \/ o = 1)%Z as [->| ->] by lia.
        + apply phi_continuous; auto.
        + destruct g as [a b n|]; [|cbn in *; tauto]. now apply dphi3_continuous.
      - apply cont_tail. apply IH; auto; cbn in HL, HO; lia. }
    destruct (Hc P HP) as [d [Hd Hq]]. exists d. split; auto. intros q Hq'. specialize (Hq q Hq').
    inversion Hq'; subst. exact Hq.
Qed.

Lemma derivatives_continuous xm grid comps (C : arr R) os j oo comp F :
  valid_grid grid -> all_uniform grid -> coefs_ok 3 grid comps C -> diff_ok 3 grid (Some os) ->
  inb comps comp = true -> nth_error os j = Some oo -> xm <> XConstant ->
  (forall q, length q = length grid -> value_at 3 (Some os) xm grid comps C q (comp ++ [Z.of_nat j]) (F q)) ->
  forall p, length p = length grid -> continuous_at F p.
Proof.
  intros Hv Hu HC Hd Hs Hj Hx HF p HL. apply cont_eps.
  assert (Hk : kgrid_ok 3 grid) by (right; auto).
  assert (Hoo : length oo = length grid /\ List.Forall (fun l => 0 <= l <= 1)%Z oo).
  { destruct Hd as [[_ D1] D2]. apply nth_error_In in Hj. rewrite Forall_forall in D1, D2. specialize (D1 oo Hj). specialize (D2 oo Hj).
    split; [unfold zlen in D1; lia|]. eapply Forall_impl; [|exact D2]. cbn. intros l [A B]. specialize (B eq_refl). lia. }
  set (G := fun q => VR 3 grid oo (fun idx => acell C (idx ++ comp)) (match xm with XNearest => proj_grid grid q | _ => q end)).
  assert (E : forall q, length q = length grid -> F q = G q).
  { intros q Hq. specialize (HF q Hq). apply (value_at_diff 3 xm grid comps C q os j oo comp) in HF; auto. rewrite HF. unfold G. now destruct xm. }
  assert (HG : cont p G).
  { unfold G. destruct xm; [congruence| |].
    - apply VR3_cont; tauto.
    - intros P HP. apply (near_proj grid Hv p (fun q => P (VR 3 grid oo (fun idx => acell C (idx ++ comp)) q)) HL).
      apply (VR3_cont grid Hv Hu oo _ (proj_grid grid p)); try tauto.
      apply in_domain_length. now apply proj_in_domain. }
  intros P HP. rewrite (E p HL) in HP. destruct (HG P HP) as [d [Hd' Hq]]. exists d. split; auto.
  intros q Hq'. rewrite E; [now apply Hq|]. apply Forall2_length in Hq'. lia.
Qed.
