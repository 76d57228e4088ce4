(** Proofs about GradModel.v over the reals (C49). *)
From Coq Require Import ZArith List Bool Reals Lra Lia Psatz.
From Flocq Require Import Raux.
From Coquelicot Require Import Coquelicot.
From Verif Require Import Base BaseFacts SplineModel Spec EvalGeneric EvalMaster EvalProps RSum EvalValue EvalR WeightsR EvalRProps SpecBasis SpecGrad GradModel.
Import ListNotations.
Open Scope Z_scope.

(** ** A loop of assignments to different cells *)
Lemma foldM_aset {T} (f : Z -> res T) (w : Z -> T) (ix : Z -> list Z) n (a : arr T) : 0 <= n ->
  (forall i, 0 <= i < n -> f i = Ok (w i) /\ inb (ashape a) (ix i) = true) ->
  (forall i j, 0 <= i < n -> 0 <= j < n -> ix i = ix j -> i = j) ->
  exists a', foldM (fun o i => v <- f i ;; aset o (ix i) v) (zrange n) a = Ok a' /\ ashape a' = ashape a /\
    (forall i, 0 <= i < n -> acell a' (ix i) = w i) /\
    (forall idx, (forall i, 0 <= i < n -> idx <> ix i) -> acell a' idx = acell a idx).
Proof.
  intros Hn Hf Hinj.
  destruct (foldM_zrange (fun o i => v <- f i ;; aset o (ix i) v)
    (fun k a' => ashape a' = ashape a /\ (forall i, 0 <= i < k -> acell a' (ix i) = w i) /\
       (forall idx, (forall i, 0 <= i < n -> idx <> ix i) -> acell a' idx = acell a idx)) n a) as (a' & E & H); auto.
  - repeat split; auto; intros; try lia.
  - intros i s Hi (S1 & G & O). destruct (Hf i Hi) as [E Hin]. rewrite E. cbn [bind].
    rewrite aset_ok by (rewrite S1; auto). eexists. split; [reflexivity|]. split; [rewrite upd_shape; auto|]. split.
    + intros j Hj. destruct (Z.eq_dec j i) as [->|Hne].
      * apply upd_same.
      * rewrite upd_other; [apply G; lia|intros Ex; apply Hne; apply Hinj; auto; lia].
    + intros idx Hidx. rewrite upd_other by (apply Hidx; auto). auto.
  - exists a'. split; auto.
Qed.

(** ** The loops, for any weights *)
Section Loops.
Context {T : Type} {NT : Num T}.
Variables (coefs points : arr T) (N p ns d : Z) (dims : list (Z * T * T)) (sv : Z -> Z -> T) (sd : Z -> Z -> Z -> T).
Hypothesis HN : 0 <= N.
Hypothesis Hd : 0 <= d <= p.
Hypothesis Hns : 0 <= ns.
Hypothesis Hp : ashape points = [N; p].
Let cells n := map2 g_cell (row_of d points n) dims.
Hypothesis Hsv : forall n k, 0 <= n < N -> 0 <= k < ns -> g_sum coefs (cells n) (-1) k = Ok (sv n k).
Hypothesis Hsd : forall n m k, 0 <= n < N -> 0 <= m < d -> 0 <= k < ns -> g_sum coefs (cells n) m k = Ok (sd n m k).

Definition Sh (st : arr T * arr T) : Prop := ashape (fst st) = [N; ns] /\ ashape (snd st) = [N; d; ns].
Definition Good (st : arr T * arr T) (n k : Z) : Prop :=
  acell (fst st) [n; k] = sv n k /\ forall m, 0 <= m < d -> acell (snd st) [n; m; k] = sd n m k.

Lemma g_store_ok n k st : 0 <= n < N -> 0 <= k < ns -> Sh st ->
  exists st', g_store coefs d n (cells n) st k = Ok st' /\ Sh st' /\ Good st' n k /\
    forall n' k', (n', k') <> (n, k) -> Good st n' k' -> Good st' n' k'.
Proof.
  intros Hn Hk [S1 S2]. unfold g_store. rewrite Hsv by auto. cbn [bind].
  rewrite aset_ok by (rewrite S1; cbn; rewrite !andb_true_iff, !Z.leb_le, !Z.ltb_lt; lia). cbn [bind].
  destruct (foldM_aset (fun m => g_sum coefs (cells n) m k) (fun m => sd n m k) (fun m => [n; m; k]) d (snd st)) as (D & E & SD & G & O).
  - lia.
  - intros m Hm. split; [apply Hsd; auto|]. rewrite S2. cbn. rewrite !andb_true_iff, !Z.leb_le, !Z.ltb_lt. lia.
  - congruence.
  - rewrite E. cbn [bind]. eexists. split; [reflexivity|]. split; [split; cbn [fst snd]; [rewrite upd_shape; auto|congruence]|].
    split; [split; cbn [fst snd]; [apply upd_same|exact G]|].
    intros n' k' Hne [G1 G2]. split; cbn [fst snd].
    + rewrite upd_other by congruence. exact G1.
    + intros m Hm. rewrite O; [auto|]. congruence.
Qed.

Lemma g_point_ok n st : 0 <= n < N -> Sh st ->
  exists st', g_point dims coefs points ns d st n = Ok st' /\ Sh st' /\ (forall k, 0 <= k < ns -> Good st' n k) /\
    forall n' k', n' <> n -> Good st n' k' -> Good st' n' k'.
Proof.
  intros Hn S0. unfold g_point.
  rewrite mapM_all_ok with (g := fun k => acell points [n; k])
    by (intros j Hj; apply zrange_In in Hj; apply aget_ok; rewrite Hp; cbn; rewrite !andb_true_iff, !Z.leb_le, !Z.ltb_lt; lia).
  cbn [bind]. change (map (fun k => acell points [n; k]) (zrange d)) with (row_of d points n). change (map2 g_cell (row_of d points n) dims) with (cells n).
  destruct (foldM_zrange (g_store coefs d n (cells n))
    (fun kk st' => Sh st' /\ (forall k, 0 <= k < kk -> Good st' n k) /\ forall n' k', n' <> n -> Good st n' k' -> Good st' n' k') ns st) as (st' & E & H); auto.
  - split; [auto|]. split; [intros; lia|auto].
  - intros k s Hk (S1 & G & O). destruct (g_store_ok n k s Hn Hk S1) as (s' & E & S2 & G' & O'). exists s'. split; auto. split; auto. split.
    + intros k' Hk'. destruct (Z.eq_dec k' k) as [->|Hne]; auto. apply O'; [congruence|]. apply G; lia.
    + intros n' k' Hne G1. apply O'; [congruence|]. auto.
  - exists st'. split; auto.
Qed.

Lemma splines_loop_ok st : Sh st ->
  exists st', foldM (g_point dims coefs points ns d) (zrange N) st = Ok st' /\ Sh st' /\
    forall n k, 0 <= n < N -> 0 <= k < ns -> Good st' n k.
Proof.
  intros S0.
  destruct (foldM_zrange (g_point dims coefs points ns d)
    (fun nn st' => Sh st' /\ forall n k, 0 <= n < nn -> 0 <= k < ns -> Good st' n k) N st) as (st' & E & H); auto.
  - split; [auto|intros; lia].
  - intros n s Hn (S1 & G). destruct (g_point_ok n s Hn S1) as (s' & E & S2 & G' & O'). exists s'. split; auto. split; auto.
    intros n' k' Hn' Hk'. destruct (Z.eq_dec n' n) as [->|Hne]; auto. apply O'; auto. apply G; auto; lia.
  - exists st'. split; auto.
Qed.
End Loops.

(** ** Weights over the reals *)
Open Scope R_scope.
Lemma g_phi_R t j : g_phi t j = blend_cubic_j t (t * t * t) (t * t) t 1 j.
Proof.
  unfold g_phi, blend_cubic_j, Ad, dAd. cbn [n_ofZ n_add n_mul n_sub n_ltb NumR].
  destruct (Rlt_bool t 0); [|destruct (Rlt_bool 1 t)]; ring.
Qed.
Lemma g_dphi_R t del j : 0 <= t <= 1 -> g_dphi t del j = blend_cubic_j t (3 * t * t * del) (2 * t * del) del 0 j.
Proof.
  intros Ht. unfold g_dphi, blend_cubic_j, Ad, dAd, dCd. cbn [n_ofZ n_add n_mul n_sub n_ltb NumR].
  rewrite (Rlt_bool_false t 0), (Rlt_bool_false 1 t) by lra. cbn [Z.sub Z.add Z.opp Z.pos_sub Pos.pred_double]. change (Z.double 1) with 2%Z. change (Z.pred_double 1) with 1%Z. ring.
Qed.

Definition dimR (t : R * R * Z) : Z * R * R := let '(a, b, n) := t in (n, a, (IZR n - 1) / (b - a)).
Definition gof (t : R * R * Z) : gdim R := let '(a, b, n) := t in Unif a b n.
Lemma unif_grid_map g : unif_grid g = map gof g.
Proof. induction g as [|[[a b] n] g IH]; cbn; auto. now rewrite IH. Qed.

Lemma g_cell_R x t : valid_dim (gof t) ->
  g_cell x (dimR t) = (cellR (gof t) x, (map (g_phi (lamR (gof t) x)) [0; 1; 2; 3]%Z, map (g_dphi (lamR (gof t) x) (delR (gof t) x)) [0; 1; 2; 3]%Z)).
Proof.
  intros H. destruct t as [[a b] n]. cbn [gof] in *. pose proof (bracket_R _ x H) as E. cbn [bracket gpR] in E.
  injection E as E2. unfold g_cell, dimR.
  change (Z.max (Z.min (n_floor (n_mul (n_sub x a) ((IZR n - 1) / (b - a)))) (n - 2)) 0) with (cellR (Unif a b n) x) in *.
  rewrite <- E2. reflexivity.
Qed.

Fixpoint oom (m : Z) (g : list (R * R * Z)) : list Z :=
  match g with [] => [] | _ :: r => (if (m =? 0)%Z then 1%Z else 0%Z) :: oom (m - 1) r end.

Definition inside_at (m : Z) (g : list (R * R * Z)) (pt : list R) : Prop :=
  forall i t x, nth_error g i = Some t -> nth_error pt i = Some x -> Z.of_nat i = m -> in_dim (gof t) x.

Lemma g_weights_R g : valid_grid (unif_grid g) -> forall m pt, length pt = length g -> inside_at m g pt ->
  mapM2 (fun (br : Z * R * R) l => let '(_, lam, del) := br in blend 3 l lam del) (brsR (unif_grid g) pt) (oom m g)
  = Ok (g_weights m (map2 g_cell pt (map dimR g))).
Proof.
  rewrite unif_grid_map. induction g as [|t g IH]; intros Hv m [|x pt] Hl Hin; try discriminate; auto.
  inversion Hv as [|? ? Hv1 Hv2]; subst. cbn [map map2 oom]. rewrite g_cell_R by auto. cbn [g_weights].
  unfold brsR. cbn [map map2 mapM2]. fold (brsR (map gof g) pt).
  rewrite (IH Hv2 (m - 1)%Z pt) by (try (cbn in Hl; lia); intros i t' x' H1 H2 H3; apply (Hin (S i) t' x'); auto; lia).
  destruct (Z.eqb_spec m 0) as [->|Hm].
  - assert (Ht : 0 <= lamR (gof t) x <= 1).
    { specialize (Hin 0%nat t x eq_refl eq_refl eq_refl). destruct Hin. split; [now apply lam_ge0|now apply lam_le1]. }
    assert (E : blend 3 1 (lamR (gof t) x) (delR (gof t) x) = Ok (map (g_dphi (lamR (gof t) x) (delR (gof t) x)) [0; 1; 2; 3]%Z)).
    { change (blend 3 1) with (@blend_cubic R NumR 1). unfold blend_cubic. change (1 =? 0)%Z with false. change (1 =? 1)%Z with true. cbv iota.
      f_equal. apply map_ext. intros j. now rewrite g_dphi_R by auto. }
    rewrite E. reflexivity.
  - assert (E : blend 3 0 (lamR (gof t) x) (delR (gof t) x) = Ok (map (g_phi (lamR (gof t) x)) [0; 1; 2; 3]%Z)).
    { change (blend 3 0) with (@blend_cubic R NumR 0). unfold blend_cubic. change (0 =? 0)%Z with true. cbv iota.
      f_equal. apply map_ext. intros j. now rewrite g_phi_R. }
    rewrite E. reflexivity.
Qed.

Lemma all_unif g : all_uniform (unif_grid g).
Proof. rewrite unif_grid_map. apply Forall_forall. intros x Hx. apply in_map_iff in Hx as ([[a b] n] & <- & _). cbn. tauto. Qed.
Lemma unif_grid_length g : length (unif_grid g) = length g.
Proof. rewrite unif_grid_map. apply map_length. Qed.

Lemma oom_ok m g : multi_ok 3 (unif_grid g) (oom m g).
Proof.
  split.
  - rewrite unif_grid_length. revert m. induction g; cbn; auto.
  - revert m. induction g; cbn; constructor; auto. destruct (_ =? _)%Z; split; lia.
Qed.

Lemma g_sum_R g ns C m k pt :
  valid_grid (unif_grid g) -> coefs_ok 3 (unif_grid g) [ns] C -> (0 <= k < ns)%Z -> length pt = length g -> inside_at m g pt ->
  g_sum C (map2 g_cell pt (map dimR g)) m k = Ok (VR 3 (unif_grid g) (oom m g) (fun idx => acell C (idx ++ [k])) pt).
Proof.
  intros Hv HC Hk Hl Hin.
  rewrite <- (get_value_R 3 (unif_grid g) (oom m g) C [ns] [k] pt) by
    (auto using oom_ok; try (right; split; auto; apply all_unif); try (cbn; rewrite andb_true_r, andb_true_iff, Z.leb_le, Z.ltb_lt; lia); rewrite unif_grid_length; auto).
  unfold get_value. rewrite (g_weights_R g Hv m pt Hl Hin). cbn [bind]. unfold g_sum.
  assert (E : map fst (map2 g_cell pt (map dimR g)) = map (fun br : Z * R * R => fst (fst br)) (brsR (unif_grid g) pt)).
  { rewrite unif_grid_map in *. clear -Hv Hl. revert pt Hl. induction g as [|t g IH]; intros [|x pt] Hl; try discriminate; auto.
    inversion Hv; subst. cbn [map map2 brsR]. rewrite g_cell_R by auto. cbn. f_equal. apply IH; auto. }
  rewrite E. reflexivity.
Qed.

(** Outside of the domain the sums still succeed. *)
Lemma g_sum_total g ns C m k pt :
  valid_grid (unif_grid g) -> coefs_ok 3 (unif_grid g) [ns] C -> (0 <= k < ns)%Z -> length pt = length g ->
  exists v, g_sum C (map2 g_cell pt (map dimR g)) m k = Ok v.
Proof.
  intros Hv [HC _] Hk Hl. unfold g_sum. eexists.
  apply (trex_ok _ _ (fun inds => acell C (map2 Z.add (map fst (map2 g_cell pt (map dimR g))) inds ++ [k]))). intros idx Hidx. cbn [app]. apply aget_ok.
  rewrite HC. apply inb_app_r.
  2:{ cbn. rewrite andb_true_r, andb_true_iff, Z.leb_le, Z.ltb_lt. lia. }
  rewrite unif_grid_map in *. clear -Hv Hl Hidx. revert m pt Hl idx Hidx.
  induction g as [|t g IH]; intros m [|x pt] Hl idx Hidx; try discriminate.
  - cbn in Hidx. inversion Hidx; subst. reflexivity.
  - inversion Hv as [|? ? Hv1 Hv2]; subst. cbn [map map2] in *. rewrite g_cell_R in Hidx |- * by auto. cbn [g_weights map fst] in *.
    inversion Hidx as [|? i ? idx' Hi Hidx']; subst. cbn [map2 inb]. rewrite (IH Hv2 (m - 1)%Z pt) by (auto; cbn in Hl; lia).
    pose proof (cellR_range (gof t) x Hv1). unfold csize.
    assert (Hi' : (0 <= i < 4)%Z) by (destruct (m =? 0)%Z; exact Hi).
    rewrite andb_true_r, andb_true_iff, Z.leb_le, Z.ltb_lt. lia.
Qed.

(** ** The functions *)
Lemma map_nth' {A B} (f : A -> B) l d d' n : (n < length l)%nat -> nth n (map f l) d = f (nth n l d').
Proof. intros H. rewrite (nth_indep _ d (f d')) by (rewrite map_length; auto). apply map_nth. Qed.

Lemma g_dims_R g : valid_grid (unif_grid g) ->
  mapM (g_dim (lower g) (upper g) (counts g)) (zrange (zlen g)) = Ok (map dimR g).
Proof.
  intros Hv. rewrite unif_grid_map in Hv.
  rewrite mapM_all_ok with (g := fun k => dimR (nth (Z.to_nat k) g (0, 0, 0%Z))).
  - f_equal. rewrite <- (map_map (fun k => nth (Z.to_nat k) g (0, 0, 0%Z)) dimR). f_equal. apply map_nth_zrange.
  - intros k Hk. apply zrange_In in Hk. assert (Hk' : (Z.to_nat k < length g)%nat) by (unfold zlen in Hk; lia).
    unfold g_dim. rewrite (lget_ok (counts g) k 0%Z) by (unfold counts; rewrite zlen_map; auto). cbn [bind].
    rewrite (lget_ok (lower g) k 0) by (unfold lower; rewrite zlen_map; auto). cbn [bind].
    rewrite (lget_ok (upper g) k 0) by (unfold upper; rewrite zlen_map; auto). cbn [bind].
    unfold lower, upper, counts.
    rewrite !(map_nth' _ g _ (0, 0, 0%Z)) by auto.
    assert (Hin : valid_dim (gof (nth (Z.to_nat k) g (0, 0, 0%Z)))).
    { apply (proj1 (List.Forall_forall _ _) Hv). apply in_map. now apply nth_In. }
    destruct (nth (Z.to_nat k) g (0, 0, 0%Z)) as [[a b] n]. cbn [fst snd dimR gof] in *.
    rewrite divE_R; [reflexivity|]. destruct Hin as [_ H]. cbn in *. lra.
Qed.

Lemma oom_neg g : forall m, (m < 0)%Z -> oom m g = zeros (unif_grid g).
Proof.
  rewrite unif_grid_map. unfold zeros. induction g as [|t g IH]; intros m Hm; cbn; auto.
  destruct (Z.eqb_spec m 0); [lia|]. f_equal. apply IH. lia.
Qed.

Lemma oom_mid g1 t g2 : oom (zlen g1) (g1 ++ t :: g2) = zeros (unif_grid g1) ++ 1%Z :: zeros (unif_grid g2).
Proof.
  rewrite unif_grid_map. induction g1 as [|u g1 IH].
  - change (zlen (@nil (R * R * Z))) with 0%Z. cbn [app oom map zeros]. change (0 =? 0)%Z with true. cbn iota. f_equal. apply oom_neg. lia.
  - rewrite zlen_cons. cbn [app oom map zeros]. destruct (Z.eqb_spec (zlen g1 + 1) 0) as [E|_]; [pose proof (zlen_nonneg g1); lia|].
    cbn [app]. f_equal. replace (zlen g1 + 1 - 1)%Z with (zlen g1) by lia. exact IH.
Qed.

Lemma unif_grid_app g1 g2 : unif_grid (g1 ++ g2) = unif_grid g1 ++ unif_grid g2.
Proof. rewrite !unif_grid_map. apply map_app. Qed.

Lemma split_nth {A} (l : list A) m d : (m < length l)%nat -> l = firstn m l ++ nth m l d :: skipn (S m) l.
Proof.
  revert m; induction l as [|a l IH]; intros [|m] H; cbn in *; try lia; auto. f_equal. apply IH. lia.
Qed.

Lemma gradient_VR g ns C k F p m :
  valid_grid (unif_grid g) -> coefs_ok 3 (unif_grid g) [ns] C -> (0 <= k < ns)%Z -> is_interpolant g ns C k F ->
  length p = length g -> (m < length g)%nat ->
  partial_at F p m (VR 3 (unif_grid g) (oom (Z.of_nat m) g) (fun idx => acell C (idx ++ [k])) p).
Proof.
  intros Hv HC Hk HF Hp Hm. unfold partial_at.
  assert (Hkg : kgrid_ok 3 (unif_grid g)) by (right; split; auto; apply all_unif).
  assert (Hin : inb [ns] [k] = true) by (cbn; rewrite andb_true_r, andb_true_iff, Z.leb_le, Z.ltb_lt; lia).
  set (c := fun idx => acell C (idx ++ [k])).
  assert (HFv : forall q, length q = length g -> F q = VR 3 (unif_grid g) (zeros (unif_grid g)) c q).
  { intros q Hq. specialize (HF q Hq). apply value_at_none in HF; auto. rewrite unif_grid_length; auto. }
  pose proof (split_nth g m (0, 0, 0%Z) Hm) as Eg. pose proof (split_nth p m 0 ltac:(lia)) as Ep.
  set (g1 := firstn m g) in *. set (g2 := skipn (S m) g) in *. set (p1 := firstn m p) in *. set (p2 := skipn (S m) p) in *.
  destruct (nth m g (0, 0, 0%Z)) as [[a b] n].
  assert (L1 : length g1 = m) by (unfold g1; rewrite firstn_length; lia).
  assert (L2 : length p1 = m) by (unfold p1; rewrite firstn_length; lia).
  assert (L3 : length p2 = length g2) by (unfold p2, g2; rewrite !skipn_length; lia).
  assert (L4 : length g2 = (length g - S m)%nat) by (unfold g2; rewrite skipn_length; lia).
  assert (Lz : length (zeros (unif_grid g1)) = length (unif_grid g1)) by (unfold zeros; apply map_length).
  assert (Ho : oom (Z.of_nat m) g = zeros (unif_grid g1) ++ 1%Z :: zeros (unif_grid g2)).
  { rewrite Eg. rewrite <- (oom_mid g1 (a, b, n) g2). f_equal. unfold zlen. lia. }
  assert (Eu : unif_grid g = unif_grid g1 ++ Unif a b n :: unif_grid g2).
  { rewrite Eg, unif_grid_app. reflexivity. }
  rewrite Ho. rewrite Eu in Hv, HFv |- *. set (x := nth m p 0) in *. rewrite Ep.
  rewrite VR_slice by (auto; rewrite unif_grid_length; lia).
  apply is_derive_Reals.
  eapply is_derive_ext; [|apply (wsum3_derive a b n); now apply Forall_elt in Hv].
  intros t. cbn beta. unfold moved. fold p1 p2.
  assert (Ef : firstn m (p1 ++ x :: p2) = p1) by (rewrite <- Ep; reflexivity).
  assert (Es : skipn (S m) (p1 ++ x :: p2) = p2) by (rewrite <- Ep; reflexivity).
  rewrite Ef, Es.
  rewrite HFv by (rewrite app_length; cbn [length]; lia). rewrite zeros_app. cbn [zeros map]. fold (zeros (unif_grid g2)).
  rewrite VR_slice by (auto; rewrite unif_grid_length; lia). reflexivity.
Qed.

(** The result of the gradient function for a supported dimension. *)

Lemma adim_ok {T} (a : arr T) i : (0 <= i < zlen (ashape a))%Z -> adim a i = Ok (nth (Z.to_nat i) (ashape a) 0%Z).
Proof. intros H. unfold adim. now rewrite (lget_ok _ i 0%Z). Qed.

Lemma nth_app_last {A} (l : list A) x d : nth (length l) (l ++ [x]) d = x.
Proof. rewrite app_nth2, Nat.sub_diag by lia. reflexivity. Qed.

Lemma row_len d (a : arr R) n : (0 <= d)%Z -> length (row_of d a n) = Z.to_nat d.
Proof. intros H. unfold row_of. now rewrite map_length, zrange_length. Qed.

Theorem gradient_inside junk g ns C points N p values dvalues :
  valid_grid (unif_grid g) -> (1 <= length g <= 4)%nat ->
  coefs_ok 3 (unif_grid g) [ns] C -> ashape points = [N; p] -> (0 <= N)%Z -> (zlen g <= p)%Z ->
  opt_shape [N; ns] values -> opt_shape [N; zlen g; ns] dvalues ->
  exists V D, vec_eval_cubic_splines_G junk (lower g) (upper g) (counts g) C points values dvalues = Ok (V, D) /\
    ashape V = [N; ns] /\ ashape D = [N; zlen g; ns] /\
    forall n k F, (0 <= n < N)%Z -> (0 <= k < ns)%Z -> is_interpolant g ns C k F ->
      acell V [n; k] = F (row_of (zlen g) points n) /\
      forall m, (m < length g)%nat ->
        in_dim (nth m (unif_grid g) (Unif 0 0 0)) (nth m (row_of (zlen g) points n) 0) ->
        partial_at F (row_of (zlen g) points n) m (acell D [n; Z.of_nat m; k]).
Proof.
  intros Hv Hd HC Hp HN Hpd HV HD. set (d := zlen g).
  assert (Hd' : (1 <= d <= 4)%Z) by (unfold d, zlen; lia).
  assert (Hns : (0 <= ns)%Z). { destruct HC as [_ [E|(nx & E & H)]]; [discriminate|]. injection E as ->. auto. }
  assert (Lsh : zlen (ashape C) = (d + 1)%Z).
  { destruct HC as [-> _]. rewrite zlen_app, zlen_map. unfold zlen at 1. rewrite unif_grid_length. unfold d, zlen. cbn. lia. }
  assert (Ens : adim C d = Ok ns).
  { rewrite adim_ok by lia. f_equal. destruct HC as [-> _]. replace (Z.to_nat d) with (length (map (csize 3) (unif_grid g))).
    apply nth_app_last. rewrite map_length, unif_grid_length. unfold d, zlen. lia. }
  unfold vec_eval_cubic_splines_G.
  assert (Ed : zlen (lower g) = d) by (unfold lower; apply zlen_map). rewrite Ed.
  assert (EN : adim points 0 = Ok N). { rewrite adim_ok by (rewrite Hp; unfold zlen; cbn; lia). rewrite Hp. reflexivity. }
  rewrite EN. cbn [bind]. unfold andim. rewrite Lsh. replace (d + 1 - 1)%Z with d by lia. rewrite Ens. cbn [bind].
  rewrite (proj2 (Z.leb_le 1 d)), (proj2 (Z.leb_le d 4)) by lia. cbn [andb].
  set (V0 := match values with Some v => v | None => mkArr [N; ns] junk end).
  set (D0 := match dvalues with Some v => v | None => mkArr [N; d; ns] junk end).
  assert (SV : ashape V0 = [N; ns]) by (unfold V0; destruct values; auto).
  assert (SD : ashape D0 = [N; d; ns]) by (unfold D0; destruct dvalues; auto).
  unfold splines_G. rewrite Ens, EN. cbn [bind]. unfold d at 1. rewrite g_dims_R by auto. cbn [bind].
  assert (Lrow : forall n, length (row_of d points n) = length g) by (intros; rewrite row_len by lia; unfold d, zlen; lia).
  set (cells := fun n => map2 g_cell (row_of d points n) (map dimR g)).
  set (sv := fun n k => VR 3 (unif_grid g) (oom (-1) g) (fun idx => acell C (idx ++ [k])) (row_of d points n)).
  set (sd := fun n m k => match g_sum C (cells n) m k with Ok v => v | Err _ => 0 end).
  destruct (splines_loop_ok C points N p ns d (map dimR g) sv sd) with (st := (V0, D0)) as (st' & E & [S1 S2] & G); auto.
  - lia.
  - intros n k Hn Hk. apply (g_sum_R g ns); auto. intros i t x _ _ Hi. lia.
  - intros n m k Hn Hm Hk. unfold sd. destruct (g_sum_total g ns C m k (row_of d points n)) as [v Ev]; auto. fold (cells n) in *. rewrite Ev. reflexivity.
  - split; auto.
  - destruct st' as [V D]. cbn [fst snd] in *. exists V, D. split; [exact E|]. split; auto. split; auto.
    intros n k F Hn Hk HF. destruct (G n k Hn Hk) as [G1 G2]. cbn [fst snd] in *. split.
    + rewrite G1. unfold sv. rewrite oom_neg by lia. specialize (HF (row_of d points n) (Lrow n)). apply value_at_none in HF; auto.
      * right. split; auto. apply all_unif.
      * rewrite unif_grid_length. auto.
      * cbn; rewrite andb_true_r, andb_true_iff, Z.leb_le, Z.ltb_lt; lia.
    + intros m Hm Hinm. rewrite G2 by (unfold d, zlen; lia). unfold sd, cells.
      rewrite (g_sum_R g ns); auto.
      * apply (gradient_VR g ns); auto.
      * intros i t x Ht Hx Hi. assert (i = m) by lia. subst i.
        rewrite unif_grid_map in Hinm. rewrite (nth_error_nth _ _ 0 Hx) in Hinm.
        rewrite (nth_error_nth _ m (Unif 0 0 0) (map_nth_error gof m g Ht)) in Hinm. exact Hinm.
Qed.
