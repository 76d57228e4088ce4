(** Rounding errors of spline evaluation: sums, tensor products and the evaluators (C72). *)
From Coq Require Import ZArith List Bool Reals Lia Lra Psatz ZifyBool.
From Coquelicot Require Import Coquelicot.
From Flocq Require Import Core.Raux Core.Generic_fmt.
From Verif Require Import Base BaseFacts SplineModel Spec SpecRound EvalGeneric EvalMaster EvalProps EvalValue EvalR WeightsR RSum EvalRProps RoundR RoundW RoundD.
Import ListNotations.
Open Scope R_scope.

(** ** The exact weights of points of the domain *)
Lemma wt_nonneg k j t : (k = 1 \/ k = 3)%Z -> (0 <= j <= k)%Z -> 0 <= t <= 1 -> 0 <= wt k j t.
Proof.
  intros Hk Hj Ht. unfold wt. destruct Hk as [-> | ->]; cbn [Z.eqb Pos.eqb].
  - destruct (j =? 0)%Z; lra.
  - unfold ebsp. destruct (Rlt_bool_spec t 0); [lra|]. destruct (Rlt_bool_spec 1 t); [lra|].
    assert (0 <= t * t <= 1) by nra. assert (0 <= t * t * t <= 1) by nra. assert (0 <= (1 - t) * (1 - t) * (1 - t)) by (repeat apply Rmult_le_pos; lra).
    case4 j Hj; unfold bsp; nra.
Qed.
Lemma wt_sum k t : (k = 1 \/ k = 3)%Z -> zsum (k + 1) (fun j => wt k j t) = 1.
Proof.
  intros [-> | ->]; cbn [Z.add Pos.add Pos.succ].
  - rewrite zsum_2. unfold wt. cbn. ring.
  - rewrite zsum_4. apply ebsp_sum.
Qed.
Lemma wsum_le k g f x M : (k = 1 \/ k = 3)%Z -> valid_dim g -> in_dim g x -> (forall i, (0 <= i < csize k g)%Z -> Rabs (f i) <= M) ->
  Rabs (wsum k 0 g f x) <= M.
Proof.
  intros Hk Hg Hx Hf. rewrite (wsum_piece k g f (cellR g x) x) by (auto; now apply cellR_admissible).
  change (lamC g (cellR g x) x) with (lamR g x). unfold piece.
  eapply Rle_trans; [apply zsum_abs|]. rewrite <- (Rmult_1_r M). rewrite <- (wt_sum k (lamR g x)) by auto.
  rewrite <- zsum_scal. apply zsum_le. intros j Hj. rewrite Rabs_mult.
  pose proof (lam_ge0 g x Hg (proj1 Hx)). pose proof (lam_le1 g x Hg (proj2 Hx)). pose proof (cellR_range g x Hg).
  rewrite (Rabs_right (wt _ _ _)) by (apply Rle_ge, wt_nonneg; auto; lia || lra).
  rewrite (Rmult_comm M). apply Rmult_le_compat_l; [apply wt_nonneg; auto; lia || lra|]. apply Hf. unfold csize. lia.
Qed.
Lemma VR_le k grid : (k = 1 \/ k = 3)%Z -> valid_grid grid -> forall pt, in_domain grid pt -> forall F M,
  (forall idx, inb (map (csize k) grid) idx = true -> Rabs (F idx) <= M) -> Rabs (VR k grid (zeros grid) F pt) <= M.
Proof.
  intros Hk Hv. induction Hv as [|g grid Hg Hv IH]; intros pt Hp F M HF; inversion Hp as [|? x ? pt' Hx Hp']; subst.
  - apply HF. reflexivity.
  - change (VR k (g :: grid) (zeros (g :: grid)) F (x :: pt')) with (wsum k 0 g (fun i => VR k grid (zeros grid) (fun idx => F (i :: idx)) pt') x).
    apply wsum_le; auto. intros i Hi. apply IH; auto. intros idx Hidx. apply HF. cbn [map inb]. rewrite Hidx. lia.
Qed.

Section Rounded.
Variable N : Num R.
Variable u : R.
Hypothesis HN : rounded N u.
Hypothesis Hu : u <= / 200.
Notation "x ⊕ y" := (@n_add R N x y) (at level 50, left associativity).
Notation "x ⊗ y" := (@n_mul R N x y) (at level 40, left associativity).
Let u0 : 0 <= u := u_pos N u HN.
Definition rsum (l : list R) : R := fold_right Rplus 0 l.
Definition asum (l : list R) : R := fold_right (fun x s => Rabs x + s) 0 l.
Lemma asum_pos l : 0 <= asum l.
Proof. unfold asum. induction l as [|a l IH]; cbn [fold_right]; [lra|]. pose proof (Rabs_pos a). lra. Qed.
Lemma pow_1u m : 1 <= (1 + u) ^ m.
Proof. apply pow_R1_Rle. lra. Qed.
Lemma fold_round l : forall a, Rabs (fold_left (@n_add R N) l a - (a + rsum l)) <= ((1 + u) ^ length l - 1) * (Rabs a + asum l).
Proof.
  induction l as [|b l IH]; intros a; cbn [fold_left rsum asum fold_right length].
  - cbn. rewrite Rplus_0_r. unfold Rminus. rewrite Rplus_opp_r, Rabs_R0. lra.
  - fold (rsum l) (asum l). destruct (r_add N u HN a b) as (e & He & E). specialize (IH (a ⊕ b)).
    pose proof (Rabs_triang a b) as T. pose proof (asum_pos l) as P. pose proof (pow_1u (length l)) as Q. cbn [pow].
    set (p := (1 + u) ^ length l) in *. set (A := Rabs a + Rabs b) in *. set (S := asum l) in *.
    assert (X1 : Rabs (a ⊕ b - (a + b)) <= u * A).
    { rewrite E. replace ((a + b) * (1 + e) - (a + b)) with (e * (a + b)) by ring. rewrite Rabs_mult. apply Rmult_le_compat; auto using Rabs_pos. }
    assert (X2 : Rabs (a ⊕ b) <= (1 + u) * A).
    { replace (a ⊕ b) with ((a ⊕ b - (a + b)) + (a + b)) by ring. eapply Rle_trans; [apply Rabs_triang|]. lra. }
    assert (X3 : (p - 1) * (Rabs (a ⊕ b) + S) <= (p - 1) * ((1 + u) * A + S)) by (apply Rmult_le_compat_l; lra).
    replace (fold_left (@n_add R N) l (a ⊕ b) - (a + (b + rsum l))) with ((fold_left (@n_add R N) l (a ⊕ b) - (a ⊕ b + rsum l)) + (a ⊕ b - (a + b))) by ring.
    eapply Rle_trans; [apply Rabs_triang|].
    assert (0 <= A) by (unfold A; pose proof (Rabs_pos a); pose proof (Rabs_pos b); lra).
    replace (Rabs a + (Rabs b + S)) with (A + S) by (unfold A; ring).
    assert (0 <= u * p * S) by (repeat apply Rmult_le_pos; lra).
    replace (((1 + u) * p - 1) * (A + S)) with ((p - 1) * ((1 + u) * A + S) + u * A + u * p * S) by ring. lra.
Qed.
Lemma prod_round (l : list (R * R)) :
  Rabs (rsum (map (fun wg => fst wg ⊗ snd wg) l) - rsum (map (fun wg => fst wg * snd wg) l)) <= u * asum (map (fun wg => fst wg * snd wg) l) /\
  asum (map (fun wg => fst wg ⊗ snd wg) l) <= (1 + u) * asum (map (fun wg => fst wg * snd wg) l).
Proof.
  induction l as [|[w g] l [I1 I2]]; cbn [map rsum asum fold_right fst snd].
  - unfold Rminus. rewrite Rplus_opp_r, Rabs_R0. lra.
  - fold (rsum (map (fun wg => fst wg ⊗ snd wg) l)) (rsum (map (fun wg => fst wg * snd wg) l)) (asum (map (fun wg => fst wg ⊗ snd wg) l)) (asum (map (fun wg => fst wg * snd wg) l)).
    destruct (r_mul N u HN w g) as (e & He & E).
    assert (X : Rabs (w ⊗ g - w * g) <= u * Rabs (w * g)).
    { rewrite E. replace (w * g * (1 + e) - w * g) with (e * (w * g)) by ring. rewrite Rabs_mult. apply Rmult_le_compat_r; auto using Rabs_pos. }
    split.
    + set (p := rsum (map (fun wg => fst wg ⊗ snd wg) l)) in *. set (q := rsum (map (fun wg => fst wg * snd wg) l)) in *.
      replace (w ⊗ g + p - (w * g + q)) with ((w ⊗ g - w * g) + (p - q)) by ring. eapply Rle_trans; [apply Rabs_triang|]. lra.
    + assert (Rabs (w ⊗ g) <= (1 + u) * Rabs (w * g)); [|lra].
      replace (w ⊗ g) with ((w ⊗ g - w * g) + w * g) by ring. eapply Rle_trans; [apply Rabs_triang|]. lra.
Qed.
Lemma dot_round (l : list (R * R)) : l <> [] ->
  Rabs (@add_left R N (map (fun wg => fst wg ⊗ snd wg) l) - rsum (map (fun wg => fst wg * snd wg) l))
  <= ((1 + u) ^ length l - 1) * asum (map (fun wg => fst wg * snd wg) l).
Proof.
  intros Hl. destruct (prod_round l) as [P1 P2]. destruct l as [|wg l]; [congruence|].
  pose proof (fold_round (map (fun wg => fst wg ⊗ snd wg) l) (fst wg ⊗ snd wg)) as F. rewrite map_length in F.
  set (s := rsum (map (fun wg => fst wg * snd wg) (wg :: l))) in *. set (S := asum (map (fun wg => fst wg * snd wg) (wg :: l))) in *.
  set (s' := rsum (map (fun wg => fst wg ⊗ snd wg) (wg :: l))) in *. set (S' := asum (map (fun wg => fst wg ⊗ snd wg) (wg :: l))) in *.
  change (fst wg ⊗ snd wg + rsum (map (fun wg => fst wg ⊗ snd wg) l)) with s' in F.
  change (Rabs (fst wg ⊗ snd wg) + asum (map (fun wg => fst wg ⊗ snd wg) l)) with S' in F.
  cbn [map add_left length pow]. set (z := fold_left _ _ _) in *. pose proof (pow_1u (length l)) as Q. set (p := (1 + u) ^ length l) in *.
  assert (0 <= S) by apply asum_pos.
  assert ((p - 1) * S' <= (p - 1) * ((1 + u) * S)) by (apply Rmult_le_compat_l; lra).
  replace (z - s) with ((z - s') + (s' - s)) by ring. eapply Rle_trans; [apply Rabs_triang|].
  replace (((1 + u) * p - 1) * S) with ((p - 1) * ((1 + u) * S) + u * S) by ring. lra.
Qed.
Lemma enum_round (ws : list R) (G : Z -> R) : ws <> [] ->
  Rabs (@add_left R N (map (fun ih => snd ih ⊗ G (fst ih)) (enum_from 0 ws)) - zsum (zlen ws) (fun j => nth (Z.to_nat j) ws 0 * G j))
  <= ((1 + u) ^ length ws - 1) * zsum (zlen ws) (fun j => Rabs (nth (Z.to_nat j) ws 0) * Rabs (G j)).
Proof.
  intros Hw. set (l := map (fun ih => (snd ih, G (fst ih))) (enum_from 0 ws)).
  assert (EL : forall (ws : list R) i, length (enum_from i ws) = length ws) by (induction ws0; cbn; auto).
  assert (Hl : l <> []) by (unfold l; destruct ws; [congruence|discriminate]).
  pose proof (dot_round l Hl) as D. unfold l in D. rewrite map_length, EL, !map_map in D. cbn [fst snd] in D.
  unfold rsum in D. rewrite (enum_sum ws G 0) in D.
  assert (E2 : asum (map (fun x => snd x * G (fst x)) (enum_from 0 ws)) = zsum (zlen ws) (fun j => Rabs (nth (Z.to_nat j) ws 0) * Rabs (G j))).
  { transitivity (fold_right Rplus 0 (map (fun ih => snd ih * (fun i => Rabs (G i)) (fst ih)) (enum_from 0 (map Rabs ws)))).
    - assert (X : forall ws i, asum (map (fun x => snd x * G (fst x)) (enum_from i ws)) =
        fold_right Rplus 0 (map (fun ih => snd ih * (fun i => Rabs (G i)) (fst ih)) (enum_from i (map Rabs ws)))); [|apply X].
      unfold asum. induction ws0 as [|w ws' IH]; intros i; cbn [enum_from map fold_right]; auto. rewrite IH. cbn [fst snd]. now rewrite Rabs_mult.
    - rewrite (enum_sum _ (fun i => Rabs (G i)) 0), zlen_map. apply zsum_ext. intros j Hj. rewrite Z.add_0_l.
      rewrite <- Rabs_R0 at 1. now rewrite map_nth. }
  rewrite E2 in D. exact D.
Qed.

(** ** Tensor products *)
Definition wN (k : Z) (g : gdim R) (x : R) : list R :=
  match @blend R N k 0 (lamN N g x) (delN N g x) with Ok ws => ws | Err _ => [] end.
Lemma dim_error_ge k g : (k = 1 \/ k = 3 /\ exists a b n, g = Unif a b n)%Z -> valid_dim g -> resolved u g ->
  0 <= err1 u k g /\ (1 + err1 u k g) * (1 + u) ^ Z.to_nat (k + 1) <= 1 + dim_error k u g.
Proof.
  intros Hk [Hn Hg] Hs. unfold err1, dim_error. assert (P2 : (1 + u) ^ 2 <= 1 + 2.005 * u) by nra.
  destruct g as [a b n|gc].
  - cbn in Hn, Hs. apply IZR_le in Hn. set (m := IZR n * u) in *. assert (Hm : 2 * u <= m) by (unfold m; nra).
    destruct Hk as [->|[-> _]]; cbn [Z.eqb Pos.eqb]; rewrite !Rmult_assoc; fold m.
    + change (Z.to_nat (1 + 1)) with 2%nat. set (p := (1 + u) ^ 2) in *. split; [lra|]. 
      apply Rle_trans with ((1 + 12 * m) * (1 + 2.005 * u)); [apply Rmult_le_compat_l; lra|].
      assert (12 * m * (2.005 * u) <= 12 * m * 0.011) by (apply Rmult_le_compat_l; lra). lra.
    + change (Z.to_nat (3 + 1)) with 4%nat. assert (P4 : (1 + u) ^ 4 <= 1 + 4.04 * u).
      { replace ((1 + u) ^ 4) with ((1 + u) ^ 2 * (1 + u) ^ 2) by ring.
        apply Rle_trans with ((1 + 2.005 * u) * (1 + 2.005 * u)); [apply Rmult_le_compat; auto; nra|nra]. }
      set (p := (1 + u) ^ 4) in *. split; [lra|].
      apply Rle_trans with ((1 + 95 * m) * (1 + 4.04 * u)); [apply Rmult_le_compat_l; lra|].
      assert (95 * m * (4.04 * u) <= 95 * m * 0.0202) by (apply Rmult_le_compat_l; lra). lra.
  - destruct Hk as [->|[_ (a & b & n & E)]]; [|discriminate]. change (Z.to_nat (1 + 1)) with 2%nat. split; [lra|]. set (p := (1 + u) ^ 2) in *.
    apply Rle_trans with ((1 + 9 * u) * (1 + 2.005 * u)); [apply Rmult_le_compat_l; lra|]. nra.
Qed.
Definition gprod (k : Z) (grid : list (gdim R)) : R := fold_right (fun g e => (1 + dim_error k u g) * e) 1 grid.
Definition kdims (k : Z) (grid : list (gdim R)) : Prop := List.Forall (fun g => k = 1 \/ k = 3 /\ exists a b n, g = Unif a b n)%Z grid.
Lemma gprod_ge1 k grid : valid_grid grid -> kdims k grid -> List.Forall (resolved u) grid -> 1 <= gprod k grid.
Proof.
  intros Hv Hk Hs. induction Hv as [|g grid Hg Hv IH]; cbn [gprod fold_right]; [lra|]. fold (gprod k grid). inversion Hk; inversion Hs; subst.
  destruct (dim_error_ge k g) as [D1 D2]; auto. pose proof (pow_1u (Z.to_nat (k + 1))). set (p := (1 + u) ^ _) in *.
  assert (1 <= 1 + dim_error k u g) by nra. specialize (IH ltac:(auto) ltac:(auto)). nra.
Qed.
Lemma close_abs k g x c lam del e ws : (k = 1 \/ k = 3)%Z -> valid_dim g -> in_dim g x ->
  close N k g x (c, lam, del) e -> @blend R N k 0 lam del = Ok ws -> zsum (k + 1) (fun j => Rabs (nth (Z.to_nat j) ws 0)) <= 1 + e.
Proof.
  intros Hk Hg Hx (Hc & ws' & E & L & W) E'. rewrite E in E'. injection E' as ->.
  set (f := fun i => if Rle_bool 0 (nth (Z.to_nat (i - c)) ws 0) then 1 else -1).
  assert (Hf : forall i, (0 <= i < csize k g)%Z -> Rabs (f i) <= 1).
  { intros i _. unfold f. destruct (Rle_bool _ _); [rewrite Rabs_R1; lra|]. rewrite Rabs_left; lra. }
  specialize (W f 1 Hf). pose proof (wsum_le k g f x 1 Hk Hg Hx Hf) as B.
  assert (E1 : zsum (k + 1) (fun j => nth (Z.to_nat j) ws 0 * f (c + j)%Z) = zsum (k + 1) (fun j => Rabs (nth (Z.to_nat j) ws 0))).
  { apply zsum_ext. intros j Hj. unfold f. replace (c + j - c)%Z with j by lia. destruct (Rle_bool_spec 0 (nth (Z.to_nat j) ws 0)).
    - rewrite Rabs_right; lra.
    - rewrite Rabs_left; lra. }
  rewrite E1 in W. apply Rabs_le_between in W. apply Rabs_le_between in B. lra.
Qed.
Lemma tsum_close k grid : (k = 1 \/ k = 3)%Z -> valid_grid grid -> kdims k grid -> List.Forall (resolved u) grid -> forall pt, in_domain grid pt ->
  forall (F : list Z -> R) M cs0 pre, length cs0 = length pre -> 0 <= M ->
  (forall idx, inb (map (csize k) grid) idx = true -> Rabs (F (map2 Z.add cs0 pre ++ idx)) <= M) ->
  Rabs (@tsum R N (map2 (wN k) grid pt) (fun inds => F (map2 Z.add (cs0 ++ map2 (cellN N) grid pt) inds)) pre
        - VR k grid (zeros grid) (fun idx => F (map2 Z.add cs0 pre ++ idx)) pt) <= (gprod k grid - 1) * M.
Proof.
  intros Hk Hv. induction Hv as [|g grid Hg Hv IH]; intros Hkd Hs pt Hp F M cs0 pre Hpre HM HF; inversion Hp as [|? x ? pt' Hx Hp']; subst.
  - cbn. rewrite !app_nil_r. unfold Rminus. rewrite !Rplus_opp_r, Rabs_R0. lra.
  - inversion Hkd as [|? ? Hk1 Hkd']; subst. inversion Hs as [|? ? Hs1 Hs']; subst. specialize (IH Hkd' Hs' pt' Hp').
    set (G := fun i => VR k grid (zeros grid) (fun idx => F (map2 Z.add cs0 pre ++ i :: idx)) pt').
    change (VR k (g :: grid) (zeros (g :: grid)) (fun idx => F (map2 Z.add cs0 pre ++ idx)) (x :: pt')) with (wsum k 0 g G x).
    pose proof (close_dim N u HN Hu k g x Hk1 Hg Hs1 Hx) as HC. set (c := cellN N g x) in *.
    destruct (dim_error_ge k g Hk1 Hg Hs1) as [D1 D2]. set (e := err1 u k g) in *.
    pose proof (gprod_ge1 k grid Hv Hkd' Hs') as HP.
    pose proof HC as (Hc & ws & Ew & Lw & W).
    pose proof (close_abs k g x c _ _ e ws Hk Hg Hx HC Ew) as HA.
    assert (HG : forall i, (0 <= i < csize k g)%Z -> Rabs (G i) <= M).
    { intros i Hi. unfold G. apply VR_le; auto. intros idx Hidx. apply HF. cbn [map inb]. rewrite Hidx. lia. }
    specialize (W G M HG).
    cbn [map2 tsum]. assert (EwN : wN k g x = ws) by (unfold wN; now rewrite Ew). rewrite EwN.
    set (T := fun j => @tsum R N (map2 (wN k) grid pt') (fun inds => F (map2 Z.add (cs0 ++ c :: map2 (cellN N) grid pt') inds)) (pre ++ [j])).
    assert (HT : forall j, (0 <= j < k + 1)%Z -> Rabs (T j - G (c + j)%Z) <= (gprod k grid - 1) * M).
    { intros j Hj. specialize (IH F M (cs0 ++ [c]) (pre ++ [j])). rewrite <- app_assoc in IH. cbn [app] in IH.
      rewrite map2_app in IH by auto. cbn [map2] in IH. unfold T, G.
      assert (Q : forall idx, inb (map (csize k) grid) idx = true -> Rabs (F ((map2 Z.add cs0 pre ++ [(c + j)%Z]) ++ idx)) <= M).
      { intros idx Hidx. rewrite <- app_assoc. apply HF. cbn [map inb app]. rewrite Hidx. unfold csize. lia. }
      specialize (IH ltac:(rewrite !app_length; cbn; lia) HM Q).
      assert (EV : VR k grid (zeros grid) (fun idx => F ((map2 Z.add cs0 pre ++ [(c + j)%Z]) ++ idx)) pt'
        = VR k grid (zeros grid) (fun idx => F (map2 Z.add cs0 pre ++ (c + j)%Z :: idx)) pt').
      { unfold VR. apply NS_ext. intros idx _. now rewrite <- app_assoc. }
      rewrite EV in IH. exact IH. }
    assert (Hws : ws <> []) by (intros ->; unfold zlen in Lw; cbn in Lw; lia).
    pose proof (enum_round ws T Hws) as ER. rewrite Lw in ER.
    assert (EL : length ws = Z.to_nat (k + 1)) by (unfold zlen in Lw; lia). rewrite EL in ER.
    pose proof (pow_1u (Z.to_nat (k + 1))) as Pq. set (p := (1 + u) ^ Z.to_nat (k + 1)) in *.
    set (E' := gprod k grid) in *. set (A := zsum (k + 1) (fun j => Rabs (nth (Z.to_nat j) ws 0))) in *.
    assert (HA0 : 0 <= A) by (apply zsum_nonneg; intros; apply Rabs_pos).
    match type of ER with Rabs (?s - _) <= _ => set (Sc := s) in * end. change (add_left _) with Sc.
    set (S1 := zsum (k + 1) (fun j => nth (Z.to_nat j) ws 0 * T j)) in *. set (S2 := zsum (k + 1) (fun j => nth (Z.to_nat j) ws 0 * G (c + j)%Z)) in *.
    assert (X1 : Rabs (S1 - S2) <= A * ((E' - 1) * M)).
    { unfold S1, S2. rewrite <- zsum_minus. eapply Rle_trans; [apply zsum_abs|]. unfold A. rewrite <- zsum_scal_r. apply zsum_le. intros j Hj.
      replace (nth (Z.to_nat j) ws 0 * T j - nth (Z.to_nat j) ws 0 * G (c + j)%Z) with (nth (Z.to_nat j) ws 0 * (T j - G (c + j)%Z)) by ring.
      rewrite Rabs_mult. apply Rmult_le_compat_l; auto using Rabs_pos. }
    assert (X2 : zsum (k + 1) (fun j => Rabs (nth (Z.to_nat j) ws 0) * Rabs (T j)) <= A * (E' * M)).
    { unfold A. rewrite <- zsum_scal_r. apply zsum_le. intros j Hj. apply Rmult_le_compat_l; [apply Rabs_pos|].
      specialize (HT j Hj). assert (Rabs (G (c + j)%Z) <= M) by (apply HG; unfold csize; lia).
      replace (T j) with ((T j - G (c + j)%Z) + G (c + j)%Z) by ring. eapply Rle_trans; [apply Rabs_triang|]. lra. }
    set (V := wsum k 0 g G x) in *.
    replace (Sc - V) with ((Sc - S1) + (S1 - S2) + (S2 - V)) by ring.
    eapply Rle_trans; [apply Rabs_triang|]. pose proof (Rabs_triang (Sc - S1) (S1 - S2)) as X0.
    assert (Y1 : Rabs (Sc - S1) <= (p - 1) * ((1 + e) * (E' * M))).
    { eapply Rle_trans; [exact ER|]. apply Rmult_le_compat_l; [lra|]. eapply Rle_trans; [exact X2|]. apply Rmult_le_compat_r; [apply Rmult_le_pos; lra|lra]. }
    assert (Y2 : Rabs (S1 - S2) <= (1 + e) * ((E' - 1) * M)).
    { eapply Rle_trans; [exact X1|]. apply Rmult_le_compat_r; [apply Rmult_le_pos; lra|lra]. }
    cbn [gprod fold_right]. fold (gprod k grid). fold E'.
    apply Rle_trans with (((1 + e) * p * E' - 1) * M).
    + replace (((1 + e) * p * E' - 1) * M) with ((p - 1) * ((1 + e) * (E' * M)) + (1 + e) * ((E' - 1) * M) + e * M) by ring. lra.
    + apply Rmult_le_compat_r; auto. assert ((1 + e) * p * E' <= (1 + dim_error k u g) * E') by (apply Rmult_le_compat_r; lra). lra.
Qed.
End Rounded.
