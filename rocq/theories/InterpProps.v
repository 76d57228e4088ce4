(** Proofs about [mlinterp] and [interp] (C23-C26). *)
From Coq Require Import ZArith List Bool Reals QArith Lia Lra Psatz ZifyBool.
From Flocq Require Import Core.Raux.
From Verif Require Import Base BaseFacts SplineModel Spec InterpModel SpecInterp EvalProps EvalValue EvalR WeightsR RSum EvalRProps EvalCases ExampleData.
Import ListNotations.
Open Scope Z_scope.

(** ** Loops *)
Lemma fill1_spec {T} {NT : Num T} N (f : Z -> res T) : 0 <= N ->
  (forall r, fill1 N f = Ok r -> ashape r = [N] /\ forall n, 0 <= n < N -> f n = Ok (acell r [n])) /\
  ((forall n, 0 <= n < N -> exists v, f n = Ok v) -> exists r, fill1 N f = Ok r).
Proof.
  intros HN. unfold fill1. set (G := fun r n => _).
  assert (H : forall k, 0 <= k -> k <= N ->
    (forall r, foldM G (zrange k) (azeros [N]) = Ok r -> ashape r = [N] /\ forall n, 0 <= n < k -> f n = Ok (acell r [n])) /\
    ((forall n, 0 <= n < k -> exists v, f n = Ok v) -> exists r, foldM G (zrange k) (azeros [N]) = Ok r)).
  { refine (natlike_ind _ _ _).
    - intros _. rewrite zrange_nil by lia. cbn. split; [intros r E; inversion E; subst; split; auto; intros; lia|eauto].
    - intros k Hk IH HkN. destruct (IH ltac:(lia)) as [I1 I2]. rewrite <- Z.add_1_r, zrange_S by auto. rewrite foldM_app.
      split.
      + intros r E. apply bind_ok in E as [r0 [E0 E]]. destruct (I1 r0 E0) as [S0 V0].
        cbn in E. apply bind_ok in E as [r1 [E1 E]]. inversion E; subst r1. clear E.
        unfold G in E1. apply bind_ok in E1 as [v [Ev Es]].
        rewrite aset_ok in Es by (rewrite S0; cbn; lia). inversion Es; subst r.
        rewrite upd_shape. split; auto. intros n Hn. destruct (Z.eq_dec n k) as [->|Hne].
        * now rewrite upd_same.
        * rewrite upd_other by congruence. apply V0. lia.
      + intros Hall. destruct I2 as [r0 E0]. { intros; apply Hall; lia. }
        rewrite E0. cbn. destruct (I1 r0 E0) as [S0 _]. destruct (Hall k ltac:(lia)) as [v Ev].
        unfold G. rewrite Ev. cbn. rewrite aset_ok by (rewrite S0; cbn; lia). cbn. eauto. }
  apply H; lia.
Qed.

Lemma fill2_spec {T} {NT : Num T} N M (f : Z -> Z -> res T) : 0 <= N -> 0 <= M ->
  (forall r, fill2 N M f = Ok r -> ashape r = [N; M] /\
     forall n m, 0 <= n < N -> 0 <= m < M -> f n m = Ok (acell r [n; m])) /\
  ((forall n m, 0 <= n < N -> 0 <= m < M -> exists v, f n m = Ok v) -> exists r, fill2 N M f = Ok r).
Proof.
  intros HN HM. unfold fill2. set (G := fun (n : Z) (r : arr T) m => v <- f n m ;; aset r [n; m] v).
  assert (HR : forall n r0, 0 <= n < N -> ashape r0 = [N; M] -> forall k, 0 <= k -> k <= M ->
    (forall r, foldM (G n) (zrange k) r0 = Ok r -> ashape r = [N; M] /\
       (forall m, 0 <= m < k -> f n m = Ok (acell r [n; m])) /\
       (forall n' m, n' <> n -> acell r [n'; m] = acell r0 [n'; m])) /\
    ((forall m, 0 <= m < k -> exists v, f n m = Ok v) -> exists r, foldM (G n) (zrange k) r0 = Ok r)).
  { intros n r0 Hn Hr0. refine (natlike_ind _ _ _).
    - intros _. rewrite zrange_nil by lia. cbn. split; [|eauto].
      intros r E; inversion E; subst. split; auto. split; auto. intros; lia.
    - intros k Hk IH HkM. destruct (IH ltac:(lia)) as [I1 I2]. rewrite <- Z.add_1_r, zrange_S by auto. rewrite foldM_app.
      split.
      + intros r E. apply bind_ok in E as [r1 [E1 E]]. destruct (I1 r1 E1) as (S1 & V1 & W1).
        cbn in E. apply bind_ok in E as [r2 [E2 E]]. inversion E; subst r2. clear E.
        unfold G in E2. apply bind_ok in E2 as [v [Ev Es]].
        rewrite aset_ok in Es by (rewrite S1; cbn; lia). inversion Es; subst r.
        rewrite upd_shape. split; auto. split.
        * intros m Hm. destruct (Z.eq_dec m k) as [->|Hne]. now rewrite upd_same.
          rewrite upd_other by congruence. apply V1. lia.
        * intros n' m Hne. rewrite upd_other by congruence. auto.
      + intros Hall. destruct I2 as [r1 E1]. { intros; apply Hall; lia. }
        rewrite E1. cbn. destruct (I1 r1 E1) as [S1 _]. destruct (Hall k ltac:(lia)) as [v Ev].
        unfold G. rewrite Ev. cbn. rewrite aset_ok by (rewrite S1; cbn; lia). cbn. eauto. }
  set (H := fun r n => _).
  assert (HH : forall k, 0 <= k -> k <= N ->
    (forall r, foldM H (zrange k) (azeros [N; M]) = Ok r -> ashape r = [N; M] /\
      forall n m, 0 <= n < k -> 0 <= m < M -> f n m = Ok (acell r [n; m])) /\
    ((forall n m, 0 <= n < k -> 0 <= m < M -> exists v, f n m = Ok v) ->
       exists r, foldM H (zrange k) (azeros [N; M]) = Ok r)).
  { refine (natlike_ind _ _ _).
    - intros _. rewrite zrange_nil by lia. cbn. split; [intros r E; inversion E; subst; split; auto; intros; lia|eauto].
    - intros k Hk IH HkN. destruct (IH ltac:(lia)) as [I1 I2]. rewrite <- Z.add_1_r, zrange_S by auto. rewrite foldM_app.
      split.
      + intros r E. apply bind_ok in E as [r0 [E0 E]]. destruct (I1 r0 E0) as [S0 V0].
        cbn in E. apply bind_ok in E as [r1 [E1 E]]. inversion E; subst r1. clear E.
        destruct (proj1 (HR k r0 ltac:(lia) S0 M HM ltac:(lia)) r E1) as (S1 & V1 & W1).
        split; auto. intros n m Hn Hm. destruct (Z.eq_dec n k) as [->|Hne]; [auto|].
        rewrite W1 by auto. apply V0; lia.
      + intros Hall. destruct I2 as [r0 E0]. { intros; apply Hall; lia. }
        rewrite E0. cbn. destruct (I1 r0 E0) as [S0 _].
        destruct (proj2 (HR k r0 ltac:(lia) S0 M HM ltac:(lia))) as [r1 E1]. { intros; apply Hall; lia. }
        unfold H, G in *. rewrite E1. cbn. eauto. }
  apply HH; lia.
Qed.

(** ** C25: argument forms, any arithmetic *)
Section Forms.
Context {T : Type} {NT : Num T}.

Lemma to_dim_axes (axes : list (iarg T)) grid : axes_of axes grid -> mapM to_dim axes = Ok grid.
Proof.
  intros H. induction H as [|e g axes grid Ha H IH]; cbn [mapM]; auto.
  assert (E : to_dim e = Ok g).
  { destruct e as [|l|a|a b n], g as [a' b' n'|gc]; cbn in Ha; try tauto.
    - destruct Ha as [Hs Hc]. cbn. rewrite Hs. do 2 f_equal.
      apply nth_ext with (d := acell a [0]) (d' := acell a [0]).
      + rewrite map_length, zrange_length. unfold zlen. lia.
      + intros i Hi. rewrite map_length, zrange_length in Hi. replace i with (Z.to_nat (Z.of_nat i)) at 1 by lia.
        rewrite nth_zmap by lia. symmetry. apply nth_error_nth.
        specialize (Hc (Z.of_nat i) ltac:(lia)). now rewrite Nat2Z.id in Hc.
    - destruct Ha as (-> & -> & ->). reflexivity. }
  rewrite E. cbn. now rewrite IH.
Qed.

Lemma axis_ndim (e : iarg T) g : axis_of e g -> arg_ndim e <= 1.
Proof.
  destruct e as [|l|a|a b n], g as [a' b' n'|gc]; cbn; try tauto; try lia.
  intros [Hs _]. unfold andim. rewrite Hs. unfold zlen. cbn. lia.
Qed.
Lemma axes_ndim (axes : list (iarg T)) grid : axes_of axes grid -> Forall (fun e => arg_ndim e <= 1) axes.
Proof. intros H. induction H; constructor; auto. eapply axis_ndim; eauto. Qed.
Lemma axes_len (axes : list (iarg T)) grid : axes_of axes grid -> zlen axes = zlen grid.
Proof. intros H. apply Forall2_length in H. unfold zlen. lia. Qed.

Lemma fold_max_le l : forall a m, a <= m -> Forall (fun x => x <= m) l -> fold_left Z.max l a <= m.
Proof. induction l; cbn; intros a0 m H F; auto. inversion F; subst. apply IHl; auto. lia. Qed.
Lemma fold_max_ge l : forall a, a <= fold_left Z.max l a /\ (forall x, In x l -> x <= fold_left Z.max l a).
Proof.
  induction l as [|b l IH]; cbn; intros a; [split; [lia|tauto]|].
  destruct (IH (Z.max a b)) as [H1 H2]. split; [lia|]. intros x [->|Hx]; [lia|auto].
Qed.
Lemma index_of_first l : forall m rest, Forall (fun x => x < m) l -> index_of m (l ++ m :: rest) = zlen l.
Proof.
  induction l as [|a l IH]; cbn [app index_of]; intros m rest H.
  - now rewrite Z.eqb_refl.
  - inversion H; subst. rewrite zlen_cons. destruct (Z.eqb_spec a m); [lia|]. rewrite IH; auto. lia.
Qed.

(** Where the coefficients are found. *)
Lemma lget_mid {A} (l : list A) x r i : i = zlen l -> lget (l ++ x :: r) i = Ok x.
Proof.
  intros ->. unfold lget. pose proof (zlen_nonneg l). destruct (Z.ltb_spec (zlen l) 0); [lia|].
  unfold zlen. rewrite Nat2Z.id, nth_error_app2, Nat.sub_diag by lia. reflexivity.
Qed.
Lemma firstn_exact {A} (l r : list A) i : i = zlen l -> firstn (Z.to_nat i) (l ++ r) = l.
Proof. intros ->. unfold zlen. rewrite Nat2Z.id, firstn_app, Nat.sub_diag, firstn_all, firstn_O, app_nil_r. reflexivity. Qed.
Lemma skipn_exact {A} (l r : list A) x i : i = zlen l + 1 -> skipn (Z.to_nat i) (l ++ x :: r) = r.
Proof.
  intros ->. unfold zlen. replace (Z.to_nat (Z.of_nat (length l) + 1)) with (length (l ++ [x])) by (rewrite app_length; cbn; lia).
  replace (l ++ x :: r) with ((l ++ [x]) ++ r) by (rewrite <- app_assoc; reflexivity).
  rewrite skipn_app, skipn_all, Nat.sub_diag. reflexivity.
Qed.
Lemma lget_after {A} (l : list A) x r i j : i = zlen l + 1 + j -> 0 <= j -> lget (l ++ x :: r) i = lget r j.
Proof.
  intros -> Hj. unfold lget. pose proof (zlen_nonneg l). destruct (Z.ltb_spec (zlen l + 1 + j) 0), (Z.ltb_spec j 0); try lia.
  replace (Z.to_nat (zlen l + 1 + j)) with (length (l ++ [x]) + Z.to_nat j)%nat by (rewrite app_length; unfold zlen; cbn; lia).
  replace (l ++ x :: r) with ((l ++ [x]) ++ r) by (rewrite <- app_assoc; reflexivity).
  rewrite nth_error_app2 by lia. now replace (length (l ++ [x]) + Z.to_nat j - length (l ++ [x]))%nat with (Z.to_nat j) by lia.
Qed.

Definition eval_type (eval_args : list (iarg T)) : res evaltype :=
  match eval_args with
  | _ :: _ :: _ =>
      if forallb is_arr eval_args
      then if forallb (fun e => arg_ndim e =? 1) eval_args then Ok Ecartesian else Err AssertErr
      else if forallb is_scalar eval_args then Ok Escalar
      else Err ValueErr
  | [AArr e] => if andim e =? 1 then Ok Epoint
                else if andim e =? 2 then Ok Evectorized else Err ValueErr
  | [ATuple _] => Ok Etuple
  | [AScalar _] => Ok Escalar
  | [ADim _ _ _] => Err ValueErr
  | [] => Err IndexErr
  end.

Lemma detect_at axes grid (C : arr T) ea vec :
  axes_of axes grid -> grid <> [] ->
  andim C = (if vec : bool then zlen grid + 1 else zlen grid) ->
  (zlen grid = 1 -> zlen ea = 1) -> (ea <> []) ->
  (zlen grid <> 1 -> Forall (fun e => arg_ndim e <= andim C) ea) ->
  detect_types (axes ++ AArr C :: ea) = (ev <- eval_type ea ;; Ok (zlen grid, vec, ev)).
Proof.
  intros Ha Hg HC H1 Hne Hea. pose proof (axes_len _ _ Ha) as HL. pose proof (axes_ndim _ _ Ha) as Hnd.
  assert (Hd : 1 <= zlen grid). { destruct grid; [congruence|]. rewrite zlen_cons. pose proof (zlen_nonneg grid). lia. }
  assert (Hd0 : 1 <= zlen ea). { destruct ea; [congruence|]. rewrite zlen_cons. pose proof (zlen_nonneg ea). lia. }
  unfold detect_types. set (args := axes ++ AArr C :: ea).
  destruct (map arg_ndim args) as [|d0 dr] eqn:E.
  { apply (f_equal (@length _)) in E. unfold args in E. rewrite map_length, app_length in E. cbn in E. lia. }
  assert (Hdd : In d0 (map arg_ndim args)) by (rewrite E; now left).
  rewrite <- E. clear dr E. rename d0 into dd.
  assert (EI : (if zlen args =? 3 then 1 else index_of (fold_left Z.max (map arg_ndim args) dd) (map arg_ndim args)) = zlen grid).
  { unfold args at 1. rewrite zlen_app, zlen_cons. destruct (Z.eq_dec (zlen grid) 1) as [E1|E1].
    - rewrite H1, HL, E1 by auto. reflexivity.
    - destruct (Z.eqb_spec (zlen axes + (zlen ea + 1)) 3) as [E3|E3]; [lia|].
      rewrite <- HL. unfold args. rewrite map_app. cbn [map arg_ndim].
      assert (EM : fold_left Z.max (map arg_ndim axes ++ andim C :: map arg_ndim ea) dd = andim C).
      { assert (HF : Forall (fun x => x <= andim C) (map arg_ndim axes ++ andim C :: map arg_ndim ea)).
        { apply Forall_app. split; [|constructor; [lia|]].
          - apply Forall_map. eapply Forall_impl; [|exact Hnd]. cbn. intros. destruct vec; lia.
          - apply Forall_map. apply Hea; lia. }
        apply Z.le_antisymm.
        - apply fold_max_le; auto. rewrite Forall_forall in HF. apply HF.
          unfold args in Hdd. rewrite map_app in Hdd. exact Hdd.
        - apply (proj2 (fold_max_ge _ _)). apply in_app_iff. right. left. reflexivity. }
      rewrite EM. rewrite index_of_first. apply zlen_map.
      apply Forall_map. eapply Forall_impl; [|exact Hnd]. cbn. intros. destruct vec; lia. }
  rewrite EI. unfold args at 1. rewrite lget_mid by lia. cbn [bind].
  assert (EV : (if andim C =? zlen grid then Ok false else if andim C =? zlen grid + 1 then Ok true else Err AssertErr) = Ok vec).
  { destruct vec; rewrite HC.
    - replace (zlen grid + 1 =? zlen grid) with false by lia. now rewrite Z.eqb_refl.
    - now rewrite Z.eqb_refl. }
  rewrite EV. cbn [bind]. unfold args. rewrite skipn_exact by lia. reflexivity.
Qed.

Lemma grid_pos (grid : list (gdim T)) : grid <> [] -> 1 <= zlen grid.
Proof. destruct grid; [congruence|]. intros _. rewrite zlen_cons. pose proof (zlen_nonneg grid). lia. Qed.

Lemma interp_tuple_eq axes grid (C : arr T) pt :
  axes_of axes grid -> grid <> [] -> andim C = zlen grid ->
  interp_tuple axes C pt = (v <- ml_nearest grid C pt ;; Ok (VNum v)).
Proof.
  intros Ha Hg HC. pose proof (axes_len _ _ Ha) as HL. pose proof (grid_pos _ Hg) as Hd.
  unfold interp_tuple, interp. rewrite (detect_at _ _ _ _ false Ha); auto; try discriminate.
  2:{ intros HN1. constructor; auto. cbn. lia. }
  cbn [eval_type bind orb]. replace (zlen grid =? 0) with false by lia.
  rewrite firstn_exact by lia. rewrite (to_dim_axes _ _ Ha). cbn [bind].
  rewrite lget_mid by lia. cbn [bind as_arr].
  rewrite (lget_after axes (AArr C) [ATuple pt] (zlen grid + 1) 0) by lia. reflexivity.
Qed.

Lemma interp_scalars axes grid (C : arr T) pt :
  axes_of axes grid -> grid <> [] -> andim C = zlen grid -> length pt = length grid ->
  interp (axes ++ AArr C :: map AScalar pt) = interp_tuple axes C pt.
Proof.
  intros Ha Hg HC Hp. pose proof (axes_len _ _ Ha) as HL. pose proof (grid_pos _ Hg) as Hd.
  rewrite (interp_tuple_eq _ grid) by auto. unfold interp. rewrite (detect_at _ grid _ _ false Ha); auto.
  2:{ intros HE. rewrite zlen_map. unfold zlen in *. lia. }
  2:{ destruct pt; [|discriminate]. destruct grid; [congruence|discriminate]. }
  2:{ intros HN1. apply Forall_map. apply Forall_forall. intros x _. cbn. lia. }
  assert (EE : eval_type (map AScalar pt) = Ok Escalar).
  { destruct pt as [|x [|y pt]]; cbn [map eval_type]; auto.
    - destruct grid; [congruence|discriminate].
    - cbn [forallb is_arr andb is_scalar].
      replace (forallb is_scalar (map AScalar pt)) with true; auto.
      symmetry. apply forallb_forall. intros e He. apply in_map_iff in He as [z [<- _]]. reflexivity. }
  rewrite EE. cbn [bind orb]. replace (zlen grid =? 0) with false by lia.
  rewrite firstn_exact by lia. rewrite (to_dim_axes _ _ Ha). cbn [bind].
  rewrite lget_mid by lia. cbn [bind as_arr].
  assert (EM : mapM (fun i => e <- lget (axes ++ AArr C :: map AScalar pt) (zlen grid + i + 1) ;; as_scalar e) (zrange (zlen grid)) = Ok pt).
  { destruct pt as [|p0 pt]. { destruct grid; [congruence|discriminate]. }
    set (pp := p0 :: pt) in *.
    transitivity (Ok (map (fun j => nth (Z.to_nat j) pp p0) (zrange (zlen grid)))).
    2:{ f_equal. replace (zlen grid) with (zlen pp) by (unfold zlen; lia). apply map_nth_zrange. }
    apply mapM_all_ok. intros i Hi. apply zrange_In in Hi.
    rewrite (lget_after axes (AArr C) _ _ i) by lia.
    rewrite (lget_ok _ i (AScalar p0)) by (rewrite zlen_map; unfold zlen in *; lia). cbn [bind].
    rewrite map_nth. reflexivity. }
  rewrite EM. reflexivity.
Qed.

Lemma interp_point_array axes grid (C a : arr T) n :
  axes_of axes grid -> 2 <= zlen grid -> andim C = zlen grid -> ashape a = [n] -> zlen grid <= n ->
  interp (axes ++ [AArr C; AArr a]) = interp_tuple axes C (map (fun i => acell a [i]) (zrange (zlen grid))).
Proof.
  intros Ha Hg HC Hs Hn. pose proof (axes_len _ _ Ha) as HL.
  assert (Hg0 : grid <> []) by (intros ->; rewrite zlen_nil in Hg; lia).
  rewrite (interp_tuple_eq _ grid) by auto. unfold interp. rewrite (detect_at _ grid _ _ false Ha); auto; try discriminate.
  2:{ intros HN1. constructor; auto. cbn. unfold andim at 1. rewrite Hs. change (zlen [n]) with 1. lia. }
  cbn [eval_type]. unfold andim. rewrite Hs. change (zlen [n]) with 1. cbn [Z.eqb Pos.eqb bind].
  replace (zlen grid =? 1) with false by lia. cbn [orb]. replace (zlen grid =? 0) with false by lia.
  rewrite firstn_exact by lia. rewrite (to_dim_axes _ _ Ha). cbn [bind].
  rewrite lget_mid by lia. cbn [bind as_arr].
  rewrite (lget_after axes (AArr C) _ (zlen grid + 1) 0) by lia. cbn.
  erewrite mapM_all_ok. cbn. reflexivity.
  intros i Hi. apply zrange_In in Hi. cbn. apply aget_ok. rewrite Hs. cbn. lia.
Qed.

Lemma tabulates_fill1 N (f : Z -> res T) (F : list Z -> res (pyval T)) : 0 <= N ->
  (forall n, 0 <= n < N -> F [n] = (v <- f n ;; Ok (VNum v))) ->
  tabulates (r <- fill1 N f ;; Ok (VArr r)) [N] F.
Proof.
  intros HN HF. destruct (fill1_spec N f HN) as [H1 H2]. split.
  - intros v E. apply bind_ok in E as [r [E Ev]]. inversion Ev; subst v. exists r. split; auto.
    destruct (H1 r E) as [S V]. split; auto. intros idx Hi. destruct idx as [|n [|]]; cbn in Hi; try lia.
    rewrite HF by lia. rewrite V by lia. reflexivity.
  - intros H. destruct H2 as [r E].
    { intros n Hn. destruct (H [n]) as [v Ev]; [cbn; lia|]. rewrite HF in Ev by auto.
      destruct (f n); [eauto|discriminate]. }
    rewrite E. cbn. eauto.
Qed.
Lemma tabulates_fill2 N M (f : Z -> Z -> res T) (F : list Z -> res (pyval T)) : 0 <= N -> 0 <= M ->
  (forall n m, 0 <= n < N -> 0 <= m < M -> F [n; m] = (v <- f n m ;; Ok (VNum v))) ->
  tabulates (r <- fill2 N M f ;; Ok (VArr r)) [N; M] F.
Proof.
  intros HN HM HF. destruct (fill2_spec N M f HN HM) as [H1 H2]. split.
  - intros v E. apply bind_ok in E as [r [E Ev]]. inversion Ev; subst v. exists r. split; auto.
    destruct (H1 r E) as [S V]. split; auto. intros idx Hi. destruct idx as [|n [|m [|]]]; cbn in Hi; try lia.
    rewrite HF by lia. rewrite V by lia. reflexivity.
  - intros H. destruct H2 as [r E].
    { intros n m Hn Hm. destruct (H [n; m]) as [v Ev]; [cbn; lia|]. rewrite HF in Ev by auto.
      destruct (f n m); [eauto|discriminate]. }
    rewrite E. cbn. eauto.
Qed.

Lemma interp_rows axes grid (C a : arr T) N p :
  axes_of axes grid -> grid <> [] -> andim C = zlen grid -> ashape a = [N; p] -> 0 <= N -> zlen grid <= p ->
  tabulates (interp (axes ++ [AArr C; AArr a])) [N]
    (fun idx => interp_tuple axes C (row_of (zlen grid) a (hd 0 idx))).
Proof.
  intros Ha Hg HC Hs HN Hp. pose proof (axes_len _ _ Ha) as HL. pose proof (grid_pos _ Hg) as Hd.
  assert (E : interp (axes ++ [AArr C; AArr a]) =
    (r <- fill1 N (fun n => p <- mapM (fun i => aget a [n; i]) (zrange (zlen grid)) ;; ml_nearest grid C p) ;; Ok (VArr r))).
  { unfold interp. rewrite (detect_at _ grid _ _ false Ha); auto; try discriminate.
    2:{ intros HN1. constructor; auto. cbn. unfold andim at 1. rewrite Hs. change (zlen [N; p]) with 2. lia. }
    cbn [eval_type]. unfold andim. rewrite Hs. change (zlen [N; p]) with 2. cbn [Z.eqb Pos.eqb bind orb].
    replace (zlen grid =? 0) with false by lia.
    rewrite firstn_exact by lia. rewrite (to_dim_axes _ _ Ha). cbn [bind].
    rewrite lget_mid by lia. cbn [bind as_arr].
    rewrite (lget_after axes (AArr C) _ (zlen grid + 1) 0) by lia. cbn. unfold adim. rewrite Hs. reflexivity. }
  rewrite E. apply tabulates_fill1; auto. intros n Hn. cbn [hd]. rewrite (interp_tuple_eq _ grid) by auto.
  erewrite mapM_all_ok. cbn [bind]. reflexivity.
  intros i Hi. apply zrange_In in Hi. cbn. apply aget_ok. rewrite Hs. cbn. lia.
Qed.

Lemma interp_1d_array e g (C a : arr T) N :
  axis_of e g -> andim C = 1 -> ashape a = [N] -> 0 <= N ->
  tabulates (interp [e; AArr C; AArr a]) [N] (fun idx => interp_tuple [e] C [acell a idx]).
Proof.
  intros Hx HC Hs HN. assert (Ha : axes_of [e] [g]) by (repeat constructor; auto).
  assert (E : interp [e; AArr C; AArr a] =
    (r <- fill1 N (fun n => x <- aget a [n] ;; ml_nearest [g] C [x]) ;; Ok (VArr r))).
  { unfold interp. change [e; AArr C; AArr a] with ([e] ++ AArr C :: [AArr a]).
    rewrite (detect_at _ [g] _ _ false Ha); auto; try discriminate.
    2:{ intros HN1. constructor; auto. cbn. unfold andim at 1. rewrite Hs. change (zlen [N]) with 1. lia. }
    cbn [eval_type]. unfold andim. rewrite Hs. change (zlen [N]) with 1. cbn [Z.eqb Pos.eqb bind].
    change (zlen [g]) with 1. cbn [Z.eqb Pos.eqb orb].
    rewrite firstn_exact by reflexivity. rewrite (to_dim_axes _ _ Ha). cbn.
    change (Pos.to_nat 1) with 1%nat. change (Pos.to_nat 2) with 2%nat. change (Pos.to_nat 3) with 3%nat. change (Pos.to_nat 4) with 4%nat.
    cbn. rewrite Hs. reflexivity. }
  rewrite E. apply tabulates_fill1; auto. intros n Hn. rewrite (interp_tuple_eq _ [g]) by (auto; discriminate).
  rewrite aget_ok by (rewrite Hs; cbn; lia). reflexivity.
Qed.

Lemma interp_cartesian e1 e2 g1 g2 (C ax ay : arr T) N M :
  axis_of e1 g1 -> axis_of e2 g2 -> andim C = 2 -> ashape ax = [N] -> ashape ay = [M] -> 0 <= N -> 0 <= M ->
  tabulates (interp [e1; e2; AArr C; AArr ax; AArr ay]) [N; M]
    (fun idx => interp_tuple [e1; e2] C [acell ax [hd 0 idx]; acell ay (tl idx)]).
Proof.
  intros Hx Hy HC Hs Hs' HN HM. assert (Ha : axes_of [e1; e2] [g1; g2]) by (repeat constructor; auto).
  assert (E : interp [e1; e2; AArr C; AArr ax; AArr ay] =
    (r <- fill2 N M (fun n m => x <- aget ax [n] ;; y <- aget ay [m] ;; ml_nearest [g1; g2] C [x; y]) ;; Ok (VArr r))).
  { unfold interp. change [e1; e2; AArr C; AArr ax; AArr ay] with ([e1; e2] ++ AArr C :: [AArr ax; AArr ay]).
    rewrite (detect_at _ [g1; g2] _ _ false Ha); auto; try discriminate.
    2:{ intros HN1. repeat constructor; auto; cbn; unfold andim at 1; rewrite ?Hs, ?Hs'; unfold zlen at 1; cbn; lia. }
    cbn [eval_type forallb is_arr andb arg_ndim]. unfold andim. rewrite Hs, Hs'. change (zlen [N]) with 1. change (zlen [M]) with 1. cbn [Z.eqb Pos.eqb andb bind].
    change (zlen [g1; g2]) with 2. cbn [Z.eqb Pos.eqb orb].
    rewrite firstn_exact by reflexivity. rewrite (to_dim_axes _ _ Ha). cbn.
    change (Pos.to_nat 2) with 2%nat. change (Pos.to_nat 3) with 3%nat. change (Pos.to_nat 4) with 4%nat.
    cbn. rewrite Hs. cbn [bind]. rewrite Hs'. reflexivity. }
  rewrite E. apply tabulates_fill2; auto. intros n m Hn Hm. rewrite (interp_tuple_eq _ [g1; g2]) by (auto; discriminate).
  cbn [hd tl]. rewrite aget_ok by (rewrite Hs; cbn; lia). rewrite aget_ok by (rewrite Hs'; cbn; lia). reflexivity.
Qed.

(** Vector values: rejected in every form; one array per axis: rejected for d >= 3. *)
Lemma interp_vector_rejected axes grid (C : arr T) ea :
  axes_of axes grid -> grid <> [] -> andim C = zlen grid + 1 ->
  ea <> [] -> (zlen grid = 1 -> zlen ea = 1) -> Forall (fun e => arg_ndim e <= 2) ea ->
  exists e, interp (axes ++ AArr C :: ea) = Err e.
Proof.
  intros Ha Hg HC Hea H1 Hnd. pose proof (axes_len _ _ Ha) as HL. pose proof (grid_pos _ Hg) as Hd.
  unfold interp. rewrite (detect_at _ grid _ _ true Ha); auto.
  2:{ intros HN1. eapply Forall_impl; [|exact Hnd]. cbn. intros. lia. }
  destruct (eval_type ea); cbn; eauto.
Qed.
Lemma interp_cartesian_rejected axes grid (C : arr T) ea :
  axes_of axes grid -> 3 <= zlen grid -> andim C = zlen grid ->
  2 <= zlen ea -> Forall (fun e => is_arr e = true) ea ->
  Forall (fun e => arg_ndim e <= 1) ea ->
  exists e, interp (axes ++ AArr C :: ea) = Err e.
Proof.
  intros Ha Hg HC Hea HA Hnd. pose proof (axes_len _ _ Ha) as HL.
  unfold interp. rewrite (detect_at _ grid _ _ false Ha); auto; try lia.
  2:{ intros ->. rewrite zlen_nil in Hg. lia. }
  2:{ intros ->. rewrite zlen_nil in Hea. lia. }
  2:{ intros HN1. eapply Forall_impl; [|exact Hnd]. cbn. intros. lia. }
  destruct ea as [|e1 [|e2 ea]]; try (unfold zlen in Hea; cbn in Hea; lia).
  assert (E : forallb is_arr (e1 :: e2 :: ea) = true).
  { apply forallb_forall. rewrite Forall_forall in HA. auto. }
  assert (EE : eval_type (e1 :: e2 :: ea) = Ok Ecartesian \/ eval_type (e1 :: e2 :: ea) = Err AssertErr).
  { unfold eval_type. rewrite E. destruct (forallb (fun e => arg_ndim e =? 1) (e1 :: e2 :: ea)), e1; auto. }
  destruct EE as [-> | ->]; cbn [bind]; [|eauto].
  cbn [orb]. replace (zlen grid =? 0) with false by lia.
  rewrite firstn_exact by lia. rewrite (to_dim_axes _ _ Ha). cbn [bind].
  rewrite lget_mid by lia. cbn [bind as_arr].
  replace (zlen grid =? 1) with false by lia. replace (zlen grid =? 2) with false by lia. eauto.
Qed.
End Forms.

(** ** C23: over the reals *)
Open Scope R_scope.

Lemma get_index_R g x : valid_dim g -> get_index g x = Ok (cellR g x, lamR g x).
Proof.
  intros H. pose proof (cellR_range g x H) as Hc. pose proof (cell_gap g x H) as Hgap.
  destruct g as [a b n|gc].
  - pose proof (gsize_IZR _ H) as Hn. pose proof (unif_step _ _ _ H) as Hs. destruct H as [Hn2 Hab]. cbn in Hn, Hn2, Hab.
    unfold get_index. cbn [n_sub n_ofZ NumR]. rewrite minus_IZR. rewrite divE_R by lra. cbn [bind].
    change (n_is0 ((b - a) / (IZR n - 1))) with (Reqb0 ((b - a) / (IZR n - 1))). rewrite Reqb0_false by lra.
    cbn [n_floordiv n_mul NumR].
    assert (EF : (x - a) / ((b - a) / (IZR n - 1)) = (x - a) * ((IZR n - 1) / (b - a))) by (field; lra).
    assert (EC : clamp (Zfloor ((x - a) / ((b - a) / (IZR n - 1)))) 0 (n - 2) = cellR (Unif a b n) x).
    { rewrite EF. unfold clamp, cellR. lia. }
    rewrite EC. set (c := cellR (Unif a b n) x) in *.
    rewrite divE_R by lra. cbn [bind]. do 2 f_equal. unfold lamR. fold c. cbn [gnode]. rewrite plus_IZR.
    field. repeat split; try lra.
  - unfold get_index.
    assert (EC : clamp (searchsorted gc x - 1) 0 (zlen gc - 2) = cellR (Nonunif gc) x).
    { unfold clamp, cellR. destruct H as [H _]. cbn in H. lia. }
    rewrite EC. cbn [gsize] in Hc.
    rewrite (lget_ok gc _ 0) by lia. cbn [bind]. rewrite (lget_ok gc _ 0) by lia. cbn [bind].
    rewrite divE_R. reflexivity. cbn in Hgap. cbn. lra.
Qed.

Lemma get_indices_R grid : valid_grid grid -> forall pt, length pt = length grid ->
  mapM2 get_index grid pt = Ok (map2 (fun g x => (cellR g x, lamR g x)) grid pt).
Proof.
  intros Hv. induction Hv as [|g grid Hg Hv IH]; intros [|x pt] HL; try discriminate; auto.
  cbn [mapM2 map2]. rewrite get_index_R by auto. cbn [bind]. rewrite IH by (cbn in HL; lia). reflexivity.
Qed.

Lemma split_map2 grid : forall pt,
  List.split (map2 (fun g x => (cellR g x, lamR g x)) grid pt) = (map2 cellR grid pt, map2 lamR grid pt).
Proof. induction grid as [|g grid IH]; intros [|x pt]; cbn; auto. now rewrite IH. Qed.

(** Reading the corners, then reducing. *)
Lemma reduce_R grid : valid_grid grid -> forall (C : arr R) pt pre psh, length pt = length grid ->
  ashape C = (psh ++ map gsize grid)%list -> inb psh pre = true ->
  exists t, get_coeffs_from C (map2 cellR grid pt) pre = Ok t /\
    tensor_reduction t (map2 lamR grid pt) = Ok (VR 1 grid (zeros grid) (fun idx => acell C (pre ++ idx)%list) pt).
Proof.
  intros Hv. induction Hv as [|g grid Hg Hv IH]; intros C [|x pt] pre psh HL HC Hp; try discriminate.
  - cbn. rewrite aget_ok by (rewrite HC, app_nil_r; auto). cbn. eexists. split; [reflexivity|].
    unfold VR; cbn. now rewrite app_nil_r.
  - pose proof (cellR_range g x Hg) as Hc.
    cbn [map2 get_coeffs_from]. cbn [map] in HC.
    assert (Hi : forall j, (0 <= j < gsize g)%Z -> inb (psh ++ [gsize g])%list (pre ++ [j])%list = true).
    { intros j Hj. apply inb_app_r; auto. cbn. lia. }
    destruct (IH C pt (pre ++ [cellR g x])%list (psh ++ [gsize g])%list) as [t0 [E0 R0]].
    { cbn in HL; lia. } { rewrite HC, <- app_assoc. reflexivity. } { apply Hi. lia. }
    destruct (IH C pt (pre ++ [(cellR g x + 1)%Z])%list (psh ++ [gsize g])%list) as [t1 [E1 R1]].
    { cbn in HL; lia. } { rewrite HC, <- app_assoc. reflexivity. } { apply Hi. lia. }
    rewrite E0. cbn [bind]. rewrite E1. cbn [bind]. eexists. split; [reflexivity|].
    cbn [tensor_reduction]. rewrite R0. cbn [bind]. rewrite R1. cbn [bind]. f_equal.
    unfold VR. unfold zeros. cbn [map]. rewrite dims_cons. cbn [NS]. rewrite phi1_sum by auto. cbn.
    assert (EV : forall j, NS (dims 1 grid (map (fun _ => 0%Z) grid) pt) (fun idx => acell C ((pre ++ [j]) ++ idx)%list) =
      NS (dims 1 grid (map (fun _ => 0%Z) grid) pt) (fun idx => acell C (pre ++ j :: idx)%list)).
    { intros j. apply NS_ext. intros idx _. now rewrite <- app_assoc. }
    rewrite !EV. reflexivity.
Qed.

Lemma mlinterp_point_R grid (C : arr R) pt : valid_grid grid -> coefs_ok 1 grid [] C -> length pt = length grid ->
  mlinterp_point grid C pt = Ok (VR 1 grid (zeros grid) (fun idx => acell C idx) pt).
Proof.
  intros Hv [HC _] HL. unfold mlinterp_point. rewrite get_indices_R by auto. cbn [bind]. rewrite split_map2.
  unfold get_coeffs. rewrite app_nil_r, csize1_map in HC.
  replace (zlen (map2 cellR grid pt) <? andim C)%Z with false.
  2:{ unfold andim. rewrite HC, zlen_map. unfold zlen. rewrite map2_length by lia. lia. }
  destruct (reduce_R grid Hv C pt [] [] HL HC eq_refl) as [t [E1 E2]]. rewrite E1. cbn [bind]. exact E2.
Qed.

Lemma VR_app_nil k grid oo (C : arr R) pt :
  VR k grid oo (fun idx => acell C (idx ++ [])%list) pt = VR k grid oo (fun idx => acell C idx) pt.
Proof. apply NS_ext. intros. now rewrite app_nil_r. Qed.

Lemma value_linear_R mode grid (C : arr R) pt v : valid_grid grid -> coefs_ok 1 grid [] C -> length pt = length grid ->
  value_linear mode grid [] C pt [] v <->
  v = match xpoint (default_mode mode) grid pt with
      | Some q => VR 1 grid (zeros grid) (fun idx => acell C idx) q
      | None => 0
      end.
Proof.
  intros Hv HC HL. rewrite value_linear_at. rewrite value_at_none by (auto; now left).
  destruct (xpoint _ _ _); [rewrite VR_app_nil|]; reflexivity.
Qed.

Theorem mlinterp_point_eval grid (C : arr R) pt r : valid_grid grid -> coefs_ok 1 grid [] C -> length pt = length grid ->
  mlinterp grid C (P1 pt) = Ok r <-> eval_linear grid C (P1 pt) None None = Ok (r, None).
Proof.
  intros Hv HC HL. cbn [mlinterp]. rewrite mlinterp_point_R by auto. cbn [bind].
  set (v := VR 1 grid (zeros grid) (fun idx => acell C idx) pt).
  assert (H : value_linear None grid [] C pt [] v) by (apply (proj2 (value_linear_R _ _ _ _ _ Hv HC HL)); reflexivity).
  destruct H as [H _].
  destruct (H (row_array pt) 1%Z 0%Z) as [o [Eo [So Vo]]].
  { cbn. unfold zlen. now rewrite HL. } { lia. } { replace (zlen grid) with (zlen pt) by (unfold zlen; lia). apply row_array_row. }
  destruct (rows_are_points 1 None XLinear grid [] C (row_array pt) o 1 0 HC) as [_ [r' [E Er]]].
  { split; [now left|]. intros [Hx _]. discriminate. } { cbn. unfold zlen. now rewrite HL. } { exact Eo. } { lia. }
  replace (zlen grid) with (zlen pt) in E by (unfold zlen; lia). rewrite row_array_row in E.
  change (eval_linear grid C (P1 pt) None None) with (eval_spline 1 None XLinear grid C (P1 pt) None).
  rewrite E, Er, Vo. split; intros HH; inversion HH; reflexivity.
Qed.

Lemma mlinterp_rows_R grid (C : arr R) points N : valid_grid grid -> coefs_ok 1 grid [] C ->
  ashape points = [N; zlen grid] -> (0 <= N)%Z ->
  exists a, mlinterp grid C (P2 points) = Ok (VArr a) /\ ashape a = [N] /\ forall n, (0 <= n < N)%Z ->
      acell a [n] = VR 1 grid (zeros grid) (fun idx => acell C idx) (row_of (zlen grid) points n).
Proof.
  intros Hv HC Hs HN. cbn [mlinterp]. unfold andim, adim. rewrite Hs. change (zlen [N; zlen grid]) with 2%Z.
  cbn [Z.eqb Pos.eqb negb]. cbn [lget Z.ltb Z.compare Z.to_nat nth_error bind].
  set (f := fun n : Z => uu <- extract_row points n grid ;; mlinterp_point grid C uu).
  assert (Hf : forall n, (0 <= n < N)%Z -> f n = Ok (VR 1 grid (zeros grid) (fun idx => acell C idx) (row_of (zlen grid) points n))).
  { intros n Hn. unfold f, extract_row. erewrite mapM_all_ok. cbn [bind]. apply mlinterp_point_R; auto.
    - unfold row_of. rewrite map_length, zrange_length. unfold zlen. lia.
    - intros i Hi. apply zrange_In in Hi. cbn. apply aget_ok. rewrite Hs. cbn. lia. }
  destruct (fill1_spec N f HN) as [H1 H2]. destruct H2 as [r E]. { intros n Hn. rewrite Hf; eauto. }
  rewrite E. cbn [bind]. destruct (H1 r E) as [S V]. exists r. split; auto. split; auto.
  intros n Hn. specialize (V n Hn). rewrite Hf in V by auto. now inversion V.
Qed.

Theorem mlinterp_rows_eval grid (C : arr R) points N : valid_grid grid -> coefs_ok 1 grid [] C ->
  ashape points = [N; zlen grid] -> (0 <= N)%Z ->
  exists a b, mlinterp grid C (P2 points) = Ok (VArr a) /\ eval_linear grid C (P2 points) None None = Ok (VArr b, None) /\ aeq a b.
Proof.
  intros Hv HC Hs HN. destruct (mlinterp_rows_R grid C points N Hv HC Hs HN) as [a [E [S V]]].
  exists a.
  assert (Hall : forall n, (0 <= n < N)%Z -> exists o, eval_linear grid C (P2 points) None None = Ok (VArr o, None) /\ ashape o = [N] /\ acell o [n] = acell a [n]).
  { intros n Hn. set (pt := row_of (zlen grid) points n).
    assert (HL : length pt = length grid). { unfold pt, row_of. rewrite map_length, zrange_length. unfold zlen. lia. }
    pose proof (proj2 (value_linear_R None _ _ _ _ Hv HC HL) eq_refl) as [H _].
    destruct (H points N n Hs Hn eq_refl) as [o [E1 [E2 E3]]]. exists o. split; auto. split; auto.
    rewrite E3, V by auto. reflexivity. }
  destruct (Z.eq_dec N 0) as [->|Hne].
  - (* no rows *)
    exists (azeros [0%Z]). split; [exact E|]. split.
    2:{ split; [exact S|]. rewrite S. intros idx Hi. destruct idx as [|n [|]]; cbn in Hi; lia. }
    change (eval_linear grid C (P2 points) None None) with (eval_spline 1 None XLinear grid C (P2 points) None).
    cbn [eval_spline]. unfold eval_rows.
    rewrite (compile_check_R 1 grid None) by (auto using diff_ok_none; now left). cbn [bind].
    unfold adim at 1. rewrite Hs. change (lget [0%Z; zlen grid] 0) with (@Ok Z 0%Z). cbn [bind].
    destruct (comps_nvals 1 grid [] C None HC) as [E1 _]. rewrite E1. cbn [bind]. unfold allocate_output.
    destruct (comps_facts _ _ _ _ HC) as [[_ EF]|[nx [EF _]]]; [|discriminate]. rewrite EF. cbn [bind].
    rewrite mapM_recoverN_R by auto. cbn [bind]. rewrite zrange_nil by lia. reflexivity.
  - destruct (Hall 0%Z ltac:(lia)) as [o [Eo [So _]]]. exists o. split; auto. split; auto. split; [congruence|].
    rewrite S. intros idx Hi. destruct idx as [|n [|]]; cbn in Hi; try lia.
    destruct (Hall n ltac:(lia)) as [o' [Eo' [_ Vo]]]. assert (o = o') by congruence. subst o'. auto.
Qed.

(** ** C24 *)
Lemma project_R grid : valid_grid grid -> forall pt, length pt = length grid -> project grid pt = Ok (proj_grid grid pt).
Proof.
  intros Hv. induction Hv as [|g grid Hg Hv IH]; intros [|x pt] HL; try discriminate; auto.
  cbn [project proj_grid map2].
  assert (EB : match g with
               | Unif a b _ => Ok (a, b)
               | Nonunif gc => hi <- lget gc (zlen gc - 1) ;; lo <- lget gc 0 ;; Ok (lo, hi)
               end = Ok (glo g, ghi g)).
  { destruct g as [a b n|gc]. { now rewrite glo_unif, (ghi_unif _ _ _ Hg). }
    destruct Hg as [Hn _]. cbn in Hn. rewrite (lget_ok gc _ 0) by lia. cbn [bind].
    rewrite (lget_ok gc _ 0) by lia. reflexivity. }
  rewrite EB. cbn [bind]. rewrite IH by (cbn in HL; lia). cbn [bind fst snd].
  rewrite pymax_R, pymin_R. pose proof (glo_ghi g Hg). f_equal. f_equal. unfold projR.
  unfold Rmax, Rmin. repeat destruct (Rle_dec _ _); lra.
Qed.

Lemma ml_nearest_R grid (C : arr R) pt : valid_grid grid -> coefs_ok 1 grid [] C -> length pt = length grid ->
  ml_nearest grid C pt = Ok (VR 1 grid (zeros grid) (fun idx => acell C idx) (proj_grid grid pt)).
Proof.
  intros Hv HC HL. unfold ml_nearest. rewrite project_R by auto. cbn [bind].
  apply mlinterp_point_R; auto. now apply proj_grid_length.
Qed.

Lemma coefs_andim grid (C : arr R) : coefs_ok 1 grid [] C -> andim C = zlen grid.
Proof. intros [H _]. unfold andim. rewrite H, app_nil_r, zlen_map. reflexivity. Qed.

Theorem interp_is_nearest axes grid (C : arr R) pt v :
  axes_of axes grid -> grid <> [] -> valid_grid grid -> coefs_ok 1 grid [] C -> length pt = length grid ->
  interp_tuple axes C pt = Ok (VNum v) <-> value_linear (Some XNearest) grid [] C pt [] v.
Proof.
  intros Ha Hg Hv HC HL. rewrite (interp_tuple_eq _ grid) by (auto using coefs_andim).
  rewrite ml_nearest_R by auto. cbn [bind]. rewrite value_linear_R by auto. cbn [default_mode xpoint].
  split; [intros H; inversion H; auto|intros ->; auto].
Qed.
Theorem interp_total axes grid (C : arr R) pt :
  axes_of axes grid -> grid <> [] -> valid_grid grid -> coefs_ok 1 grid [] C -> length pt = length grid ->
  exists v, interp_tuple axes C pt = Ok (VNum v).
Proof.
  intros Ha Hg Hv HC HL. rewrite (interp_tuple_eq _ grid) by (auto using coefs_andim).
  rewrite ml_nearest_R by auto. cbn. eauto.
Qed.

Theorem interp_at_node axes grid (C : arr R) idx :
  axes_of axes grid -> grid <> [] -> valid_grid grid -> coefs_ok 1 grid [] C -> inb (ashape C) idx = true ->
  interp_tuple axes C (node_at grid idx) = Ok (VNum (acell C idx)).
Proof.
  intros Ha Hg Hv HC Hi.
  assert (Hi' : inb (map gsize grid) idx = true). { destruct HC as [HC _]. now rewrite HC, app_nil_r, csize1_map in Hi. }
  apply (interp_is_nearest axes grid); auto. now apply node_at_length.
  pose proof (eval_linear_at_node (Some XNearest) grid [] C idx [] Hv HC Hi' eq_refl) as H.
  now rewrite app_nil_r in H.
Qed.
Theorem interp_range axes grid (C : arr R) m M pt v :
  axes_of axes grid -> grid <> [] -> valid_grid grid -> coefs_ok 1 grid [] C -> length pt = length grid ->
  (forall idx, inb (ashape C) idx = true -> m <= acell C idx <= M) ->
  interp_tuple axes C pt = Ok (VNum v) -> m <= v <= M.
Proof.
  intros Ha Hg Hv HC HL Hc H. apply (interp_is_nearest axes grid) in H; auto.
  apply (eval_linear_range (Some XNearest) grid [] C m M pt [] v); auto.
  intros idx Hi. rewrite app_nil_r. apply Hc. destruct HC as [HC _]. now rewrite HC, app_nil_r, csize1_map.
Qed.
Theorem interp_constant_outside axes grid (C : arr R) pt q :
  axes_of axes grid -> grid <> [] -> valid_grid grid -> coefs_ok 1 grid [] C -> length pt = length grid ->
  closest grid pt q -> interp_tuple axes C pt = interp_tuple axes C q.
Proof.
  intros Ha Hg Hv HC HL Hq.
  assert (E : q = proj_grid grid pt) by (apply closest_proj; auto).
  rewrite !(interp_tuple_eq _ grid) by (auto using coefs_andim).
  rewrite !ml_nearest_R; auto.
  - rewrite (proj_inside grid q) by apply Hq. now rewrite E.
  - rewrite E. now apply proj_grid_length.
Qed.

(** ** C26 *)
Lemma NS_le l c c' : Forall (fun p => forall i, (0 <= i < fst p)%Z -> 0 <= snd p i) l ->
  (forall idx, inb (map fst l) idx = true -> c idx <= c' idx) -> NS l c <= NS l c'.
Proof.
  intros H. revert c c'. induction H as [|[n w] l Hw H IH]; cbn [NS]; intros c c' Hc; [apply Hc; reflexivity|].
  apply zsum_le. intros i Hi. apply Rmult_le_compat_l; [now apply Hw|]. apply IH. intros idx Hidx.
  apply Hc. cbn. rewrite Hidx. lia.
Qed.
Lemma dims_nonneg grid : valid_grid grid -> forall pt, in_domain grid pt ->
  Forall (fun p : Z * (Z -> R) => forall i, (0 <= i < fst p)%Z -> 0 <= snd p i) (dims 1 grid (zeros grid) pt).
Proof.
  intros Hv. induction Hv as [|g grid Hg Hv IH]; intros pt Hd; inversion Hd; subst.
  - constructor.
  - unfold zeros. cbn [map]. rewrite dims_cons. constructor.
    + intros i Hi. cbn. now apply phi1_nonneg.
    + now apply IH.
Qed.

Lemma seq_mono (s : Z -> R) n : (forall i, (0 <= i)%Z -> (i + 1 < n)%Z -> s i <= s (i + 1)%Z) ->
  forall i j, (0 <= i)%Z -> (i <= j)%Z -> (j < n)%Z -> s i <= s j.
Proof.
  intros H i j Hi Hij. replace j with (i + (j - i))%Z by lia. assert (Hk : (0 <= j - i)%Z) by lia.
  revert Hk. generalize (j - i)%Z. refine (natlike_ind _ _ _).
  - intros _. rewrite Z.add_0_r. lra.
  - intros k Hk IH Hn. specialize (IH ltac:(lia)). specialize (H (i + k)%Z ltac:(lia) ltac:(lia)).
    replace (i + Z.succ k)%Z with (i + k + 1)%Z by lia. lra.
Qed.

Lemma phi1_monotone g (s : Z -> R) x y : valid_dim g ->
  (forall i, (0 <= i)%Z -> (i + 1 < gsize g)%Z -> s i <= s (i + 1)%Z) ->
  in_dim g x -> in_dim g y -> x <= y ->
  zsum (csize 1 g) (fun i => phi 1 0 g x i * s i) <= zsum (csize 1 g) (fun i => phi 1 0 g y i * s i).
Proof.
  intros Hg Hs [Hx1 Hx2] [Hy1 Hy2] Hxy. rewrite !phi1_sum by auto.
  pose proof (cellR_range g x Hg) as Cx. pose proof (cellR_range g y Hg) as Cy.
  pose proof (cell_gap g x Hg) as Gx. pose proof (cell_gap g y Hg) as Gy.
  pose proof (lam_ge0 g x Hg Hx1). pose proof (lam_le1 g x Hg Hx2). pose proof (lam_ge0 g y Hg Hy1). pose proof (lam_le1 g y Hg Hy2).
  pose proof (lamR_eq g x Hg) as Lx. pose proof (lamR_eq g y Hg) as Ly.
  pose proof (Hs (cellR g x) ltac:(lia) ltac:(lia)) as Sx. pose proof (Hs (cellR g y) ltac:(lia) ltac:(lia)) as Sy.
  destruct (Z.lt_trichotomy (cellR g x) (cellR g y)) as [L|[E|L]].
  - pose proof (seq_mono s (gsize g) Hs (cellR g x + 1) (cellR g y) ltac:(lia) ltac:(lia) ltac:(lia)). nra.
  - rewrite E in *. set (h := gnode g (cellR g y + 1) - gnode g (cellR g y)) in *.
    assert (lamR g x <= lamR g y) by nra. nra.
  - assert (x = y).
    { pose proof (cell_left g x Hg ltac:(lia)). pose proof (cell_right g y Hg ltac:(lia)).
      pose proof (gnode_le g (cellR g y + 1) (cellR g x) Hg ltac:(lia) ltac:(lia) ltac:(lia)). lra. }
    subst y. lra.
Qed.

Lemma projR_mono g x y : x <= y -> projR g x <= projR g y.
Proof. intros H. unfold projR. unfold Rmax, Rmin. repeat destruct (Rle_dec _ _); lra. Qed.

Theorem interp_monotone g1 g g2 axes (C : arr R) p1 x y p2 v w :
  let grid := (g1 ++ g :: g2)%list in
  axes_of axes grid -> valid_grid grid -> coefs_ok 1 grid [] C ->
  length p1 = length g1 -> length p2 = length g2 ->
  (forall i1 i i2, inb (ashape C) (i1 ++ i :: i2) = true -> inb (ashape C) (i1 ++ (i + 1)%Z :: i2) = true ->
     length i1 = length g1 -> acell C (i1 ++ i :: i2) <= acell C (i1 ++ (i + 1)%Z :: i2)) ->
  interp_tuple axes C (p1 ++ x :: p2) = Ok (VNum v) ->
  interp_tuple axes C (p1 ++ y :: p2) = Ok (VNum w) ->
  x <= y -> v <= w.
Proof.
  intros grid Ha Hv HC L1 L2 Hm Ev Ew Hxy.
  assert (Hne : grid <> []) by (unfold grid; destruct g1; discriminate).
  assert (HL : forall z, length (p1 ++ z :: p2) = length grid) by (intros; unfold grid; rewrite !app_length; cbn; lia).
  assert (K : forall z u, interp_tuple axes C (p1 ++ z :: p2) = Ok (VNum u) ->
    u = VR 1 grid (zeros grid) (fun idx => acell C idx) (proj_grid g1 p1 ++ projR g z :: proj_grid g2 p2)).
  { intros z u E. rewrite (interp_tuple_eq _ grid) in E by (auto using coefs_andim).
    rewrite ml_nearest_R in E by auto. cbn in E. inversion E. f_equal. unfold proj_grid, grid.
    rewrite map2_app by auto. reflexivity. }
  rewrite (K x v Ev), (K y w Ew). unfold grid, zeros. rewrite map_app. cbn [map].
  rewrite !VR_slice by (rewrite ?map_length, ?proj_grid_length; auto).
  unfold valid_grid, grid in Hv. apply Forall_app in Hv as [Hv1 Hv2]. inversion Hv2 as [|? ? Hg Hv2']; subst.
  assert (P1' : in_domain g1 (proj_grid g1 p1)) by (apply proj_in_domain; auto).
  assert (P2' : in_domain g2 (proj_grid g2 p2)) by (apply proj_in_domain; auto).
  assert (Pg : forall z, in_dim g (projR g z)).
  { intros z. pose proof (glo_ghi g Hg). unfold projR, in_dim. split; [apply Rmax_l|]. apply Rmax_lub; [lra|apply Rmin_r]. }
  apply phi1_monotone; auto using projR_mono.
  intros i Hi Hi1. unfold slice. apply NS_le; [now apply dims_nonneg|]. intros i1 Hi1'.
  apply NS_le; [now apply dims_nonneg|]. intros i2 Hi2'.
  rewrite dims_fst, csize1_map in Hi1', Hi2' by (rewrite ?map_length, ?proj_grid_length; auto).
  destruct HC as [HC _]. rewrite app_nil_r, csize1_map in HC. unfold grid in HC. rewrite map_app in HC. cbn [map] in HC.
  apply Hm.
  - rewrite HC. apply inb_app_r; auto. cbn. rewrite Hi2'. lia.
  - rewrite HC. apply inb_app_r; auto. cbn. rewrite Hi2'. lia.
  - apply inb_length in Hi1'. now rewrite map_length in Hi1'.
Qed.
