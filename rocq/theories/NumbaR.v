(** The text of eval_cubic_numba.py evaluates the cubic spline (reals). *)
From Coq Require Import ZArith List Bool String Reals Lra Lia.
From Flocq Require Import Raux.
From Verif Require Import Base BaseFacts SplineModel Spec EvalGeneric EvalMaster EvalProps RSum EvalValue EvalR WeightsR EvalRProps SpecBasis BasisCubic BasisFinal SpecGrad GradModel GradProps NumbaModel PySyntax PySem SpecText SrcEvalCubicNumba NumbaProps.
Import ListNotations.
Open Scope list_scope.
Open Scope Z_scope.

Lemma is0_6R : n_is0 (n_ofZ (T := R) 6) = false.
Proof. cbn. apply Req_bool_false. apply IZR_neq. lia. Qed.

(** The value of the spline. *)
Definition vR (g : list (R * R * Z)) (C : arr R) (suf : list Z) (pt : list R) : R :=
  VR 3 (unif_grid g) (zeros (unif_grid g)) (fun idx => acell C (idx ++ suf)) pt.

Lemma kgrid3 g : kgrid_ok 3 (unif_grid g).
Proof. right. split; auto. apply all_unif. Qed.

Lemma vR_value g comps C suf pt : valid_grid (unif_grid g) -> coefs_ok 3 (unif_grid g) comps C -> List.length pt = List.length g -> inb comps suf = true ->
  value_at 3 None XLinear (unif_grid g) comps C pt suf (vR g C suf pt).
Proof. intros Hv HC Hl Hs. apply value_at_none; auto using kgrid3. now rewrite unif_grid_length. Qed.
Lemma vR_tensor g C suf pt : valid_grid (unif_grid g) -> in_domain (unif_grid g) pt -> vR g C suf pt = tensor_spline g pt (fun idx => acell C (idx ++ suf)).
Proof. intros. unfold vR. now rewrite VR3_tensor. Qed.

Lemma tensor_ext g : forall pt c c', (forall idx, c idx = c' idx) -> tensor_spline g pt c = tensor_spline g pt c'.
Proof.
  induction g as [|[[a b] n] g IH]; intros [|x pt] c c' H; cbn [tensor_spline]; auto.
  apply zsum_ext. intros i _. f_equal. apply IH. auto.
Qed.

Lemma n_sum_R g comps C suf pt :
  valid_grid (unif_grid g) -> coefs_ok 3 (unif_grid g) comps C -> inb comps suf = true -> List.length pt = List.length g ->
  n_sum C (map2 g_cell pt (map dimR g)) suf = Ok (vR g C suf pt).
Proof.
  intros Hv HC Hk Hl. unfold vR. rewrite <- (oom_neg g (-1)) by lia.
  rewrite <- (get_value_R 3 (unif_grid g) (oom (-1) g) C comps suf pt); auto using oom_ok, kgrid3; [|now rewrite unif_grid_length].
  unfold get_value. rewrite (g_weights_R g Hv (-1) pt Hl) by (intros i t x _ _ Hi; lia). cbn [bind]. unfold n_sum.
  assert (E : map fst (map2 g_cell pt (map dimR g)) = map (fun br : Z * R * R => fst (fst br)) (brsR (unif_grid g) pt)).
  { rewrite unif_grid_map in *. clear -Hv Hl. revert pt Hl. induction g as [|t g IH]; intros [|x pt] Hl; try discriminate; auto.
    inversion Hv; subst. cbn [map map2 brsR]. rewrite g_cell_R by auto. cbn. f_equal. apply IH; auto. }
  rewrite E. reflexivity.
Qed.

Lemma mapM_lget (pt : list R) d : d = zlen pt -> mapM (lget pt) (zrange d) = Ok pt.
Proof.
  intros ->. rewrite mapM_all_ok with (g := fun k => nth (Z.to_nat k) pt 0%R).
  - f_equal. unfold zrange, zlen. rewrite map_map, Nat2Z.id. induction pt using rev_ind; auto.
    rewrite app_length. cbn. rewrite Nat.add_1_r, seq_S, map_app. cbn. rewrite Nat2Z.id. f_equal.
    + etransitivity; [|exact IHpt]. apply map_ext_in. intros i Hi. apply in_seq in Hi. rewrite Nat2Z.id. apply app_nth1. lia.
    + now rewrite nth_middle.
  - intros k Hk. apply zrange_In in Hk. now apply lget_ok.
Qed.

Lemma mapM_row (points : arr R) N p d n : ashape points = [N; p] -> d <= p -> 0 <= n < N ->
  mapM (fun k => aget points [n; k]) (zrange d) = Ok (row_of d points n).
Proof.
  intros Hp Hd Hn. rewrite mapM_all_ok with (g := fun k => acell points [n; k]); auto.
  intros j Hj. apply zrange_In in Hj. apply aget_ok. rewrite Hp. cbn. rewrite !andb_true_iff, !Z.leb_le, !Z.ltb_lt. lia.
Qed.

Section Grid.
Context (g : list (R * R * Z)).
Let d := zlen g.
Hypothesis Hv : valid_grid (unif_grid g).

Lemma adim_last C ns : coefs_ok 3 (unif_grid g) [ns] C -> adim C d = Ok ns /\ 0 <= ns.
Proof.
  intros HC. assert (Hns : (0 <= ns)%Z). { destruct HC as [_ [E|(nx & E & H)]]; [discriminate|]. injection E as ->. auto. }
  split; auto.
  assert (Lsh : zlen (ashape C) = (d + 1)%Z).
  { destruct HC as [-> _]. rewrite zlen_app, zlen_map. unfold zlen at 1. rewrite unif_grid_length. unfold d, zlen. cbn. lia. }
  rewrite adim_ok by (rewrite Lsh; unfold d; pose proof (zlen_nonneg g); lia). f_equal. destruct HC as [-> _]. replace (Z.to_nat d) with (List.length (map (csize 3) (unif_grid g))).
  apply nth_app_last. rewrite map_length, unif_grid_length. unfold d, zlen. lia.
Qed.
Lemma rank_C comps C : coefs_ok 3 (unif_grid g) comps C -> List.length (ashape C) = (List.length g + List.length comps)%nat.
Proof. intros [-> _]. now rewrite app_length, map_length, unif_grid_length. Qed.
Lemma row_len' (points : arr R) n : List.length (row_of d points n) = List.length g.
Proof. rewrite row_len by apply zlen_nonneg. unfold d, zlen. lia. Qed.
Lemma inb1 n k : 0 <= k < n -> inb [n] [k] = true.
Proof. intros. cbn. rewrite andb_true_r, andb_true_iff, Z.leb_le, Z.ltb_lt. lia. Qed.
Lemma inb2 n m k l : 0 <= k < n -> 0 <= l < m -> inb [n; m] [k; l] = true.
Proof. intros. cbn. rewrite !andb_true_iff, !Z.leb_le, !Z.ltb_lt. lia. Qed.

Lemma spline_R C pt : coefs_ok 3 (unif_grid g) [] C -> List.length pt = List.length g ->
  num_eval_spline d (lower g) (upper g) (counts g) C pt = Ok (vR g C [] pt).
Proof.
  intros HC Hl. unfold num_eval_spline, d. rewrite g_dims_R by auto. cbn [bind]. rewrite mapM_lget by (unfold zlen; congruence). cbn [bind].
  now apply (n_sum_R g []).
Qed.

Lemma vec_spline_R C points N p out : coefs_ok 3 (unif_grid g) [] C -> ashape points = [N; p] -> 0 <= N -> d <= p -> ashape out = [N] ->
  exists o, num_vec_eval_spline d (lower g) (upper g) (counts g) C points out = Ok o /\ ashape o = [N] /\
    forall n, 0 <= n < N -> acell o [n] = vR g C [] (row_of d points n).
Proof.
  intros HC Hp HN Hpd Ho. unfold num_vec_eval_spline.
  assert (EN : adim points 0 = Ok N). { rewrite adim_ok by (rewrite Hp; unfold zlen; cbn; lia). rewrite Hp. reflexivity. }
  rewrite EN. cbn [bind].
  set (f := fun n => xs <- mapM (fun k => aget points [n; k]) (zrange d) ;; dims <- mapM (g_dim (lower g) (upper g) (counts g)) (zrange d) ;; n_sum C (map2 g_cell xs dims) []).
  destruct (foldM_aset f (fun n => vR g C [] (row_of d points n)) (fun n => [n]) N out) as (o & E & S & G & _); auto.
  - intros n Hn. split; [|rewrite Ho; now apply inb1]. unfold f. rewrite (mapM_row points N p) by auto. cbn [bind]. unfold d at 2. rewrite g_dims_R by auto. cbn [bind].
    apply (n_sum_R g []); auto. apply row_len'.
  - intros i j _ _ E. congruence.
  - exists o. rewrite <- Ho. split; [|split; auto]. rewrite <- E. apply foldM_ext. intros s n _. unfold f. rewrite !bind_assoc.
    apply bind_ext. intros xs _. rewrite !bind_assoc. reflexivity.
Qed.

Lemma splines_R C ns pt vals : coefs_ok 3 (unif_grid g) [ns] C -> List.length pt = List.length g -> ashape vals = [ns] ->
  exists o, num_eval_splines d (lower g) (upper g) (counts g) C pt vals = Ok o /\ ashape o = [ns] /\
    forall k, 0 <= k < ns -> acell o [k] = vR g C [k] pt.
Proof.
  intros HC Hl Ho. unfold num_eval_splines. destruct (adim_last C ns HC) as [-> Hns]. cbn [bind]. unfold d at 1. rewrite g_dims_R by auto. cbn [bind].
  rewrite mapM_lget by (unfold d, zlen; congruence). cbn [bind].
  destruct (foldM_aset (fun k => n_sum C (map2 g_cell pt (map dimR g)) [k]) (fun k => vR g C [k] pt) (fun k => [k]) ns vals) as (o & E & S & G & _); auto.
  - intros k Hk. split; [|rewrite Ho; now apply inb1]. apply (n_sum_R g [ns]); auto. now apply inb1.
  - intros i j _ _ E. congruence.
  - exists o. rewrite <- Ho. auto.
Qed.

Lemma vec_splines_R C ns points N p vals : coefs_ok 3 (unif_grid g) [ns] C -> ashape points = [N; p] -> 0 <= N -> d <= p -> ashape vals = [N; ns] ->
  exists o, num_vec_eval_splines d (lower g) (upper g) (counts g) C points vals = Ok o /\ ashape o = [N; ns] /\
    forall n k, 0 <= n < N -> 0 <= k < ns -> acell o [n; k] = vR g C [k] (row_of d points n).
Proof.
  intros HC Hp HN Hpd Ho. unfold num_vec_eval_splines. destruct (adim_last C ns HC) as [-> Hns]. cbn [bind].
  assert (EN : adim points 0 = Ok N). { rewrite adim_ok by (rewrite Hp; unfold zlen; cbn; lia). rewrite Hp. reflexivity. }
  rewrite EN. cbn [bind]. unfold d at 1. rewrite g_dims_R by auto. cbn [bind].
  match goal with |- exists o, foldM ?f _ _ = _ /\ _ => set (F := f) end.
  destruct (foldM_zrange F (fun nn o => ashape o = [N; ns] /\ forall n k, 0 <= n < nn -> 0 <= k < ns -> acell o [n; k] = vR g C [k] (row_of d points n)) N vals) as (o & E & H); auto.
  - split; auto. intros; lia.
  - intros n o Hn (S1 & G1). unfold F. rewrite (mapM_row points N p) by auto. cbn [bind].
    destruct (foldM_aset (fun k => n_sum C (map2 g_cell (row_of d points n) (map dimR g)) [k]) (fun k => vR g C [k] (row_of d points n)) (fun k => [n; k]) ns o) as (o' & E & S & G & O); auto.
    + intros k Hk. split; [|rewrite S1; now apply inb2]. apply (n_sum_R g [ns]); auto using row_len'. now apply inb1.
    + intros i j _ _ E. congruence.
    + exists o'. split; [exact E|]. split; [congruence|]. intros n' k Hn' Hk. destruct (Z.eq_dec n' n) as [->|Hne]; [auto|].
      rewrite O by (intros; congruence). apply G1; auto; lia.
  - exists o. auto.
Qed.
End Grid.

(** ** The text *)
Section Text.
Context (g : list (R * R * Z)).
Hypothesis Hv : valid_grid (unif_grid g).
Hypothesis Hd : (1 <= List.length g <= 4)%nat.

Theorem text_spline_R fuel C pt : coefs_ok 3 (unif_grid g) [] C -> List.length pt = List.length g ->
  let h := [OF (vecT (lower g)); OF (vecT (upper g)); OI (vecZ (counts g)); OF C; OF (vecT pt)] in
  exists v, run_text eval_cubic_numba_py (S fuel) (dim_name "eval_cubic_spline_" (List.length g)) (arrays 5) [] h = Ok (PFlt v, h) /\
    value_at 3 None XLinear (unif_grid g) [] C pt [] v /\
    (in_domain (unif_grid g) pt -> v = tensor_spline g pt (acell C)).
Proof.
  intros HC Hl h. exists (vR g C [] pt). split; [|split].
  - unfold h. rewrite (text_spline is0_6R) by (auto; rewrite (rank_C g []) by auto; cbn; lia).
    fold (zlen g). now rewrite spline_R by auto.
  - now apply vR_value.
  - intros Hin. rewrite vR_tensor by auto. apply tensor_ext. intros. now rewrite app_nil_r.
Qed.

Theorem text_vec_spline_R fuel C points N p out :
  coefs_ok 3 (unif_grid g) [] C -> ashape points = [N; p] -> 0 <= N -> zlen g <= p -> ashape out = [N] ->
  let h o := [OF (vecT (lower g)); OF (vecT (upper g)); OI (vecZ (counts g)); OF C; OF points; OF o] in
  exists o, run_text eval_cubic_numba_py (S fuel) (dim_name "vec_eval_cubic_spline_" (List.length g)) (arrays 6) [] (h out) = Ok (PNone, h o) /\
    ashape o = [N] /\ forall n, 0 <= n < N ->
      value_at 3 None XLinear (unif_grid g) [] C (row_of (zlen g) points n) [] (acell o [n]) /\
      (in_domain (unif_grid g) (row_of (zlen g) points n) -> acell o [n] = tensor_spline g (row_of (zlen g) points n) (acell C)).
Proof.
  intros HC Hp HN Hpd Ho h. destruct (vec_spline_R g Hv C points N p out) as (o & E & S & G); auto.
  exists o. split; [|split; auto].
  - unfold h. rewrite (text_vec_spline is0_6R); auto; try (rewrite ?Hp, ?Ho; reflexivity); [|rewrite (rank_C g []) by auto; cbn; lia].
    fold (zlen g). now rewrite E.
  - intros n Hn. rewrite G by auto. split; [apply vR_value; auto using row_len'|].
    intros Hin. rewrite vR_tensor by auto. apply tensor_ext. intros. now rewrite app_nil_r.
Qed.

Theorem text_splines_R fuel C ns pt vals :
  coefs_ok 3 (unif_grid g) [ns] C -> List.length pt = List.length g -> ashape vals = [ns] ->
  let h o := [OF (vecT (lower g)); OF (vecT (upper g)); OI (vecZ (counts g)); OF C; OF (vecT pt); OF o] in
  exists o, run_text eval_cubic_numba_py (S fuel) (dim_name "eval_cubic_splines_" (List.length g)) (arrays 6) [] (h vals) = Ok (PNone, h o) /\
    ashape o = [ns] /\ forall k, 0 <= k < ns ->
      value_at 3 None XLinear (unif_grid g) [ns] C pt [k] (acell o [k]) /\
      (in_domain (unif_grid g) pt -> acell o [k] = tensor_spline g pt (fun idx => acell C (idx ++ [k]))).
Proof.
  intros HC Hl Ho h. destruct (splines_R g Hv C ns pt vals) as (o & E & S & G); auto.
  exists o. split; [|split; auto].
  - unfold h. rewrite (text_splines is0_6R); auto; try (rewrite ?Hp, ?Ho; reflexivity); [|rewrite (rank_C g [ns]) by auto; cbn; lia].
    fold (zlen g). now rewrite E.
  - intros k Hk. rewrite G by auto. split; [apply vR_value; auto using inb1|]. intros Hin. now apply vR_tensor.
Qed.

Theorem text_vec_splines_R fuel C ns points N p vals :
  coefs_ok 3 (unif_grid g) [ns] C -> ashape points = [N; p] -> 0 <= N -> zlen g <= p -> ashape vals = [N; ns] ->
  let h o := [OF (vecT (lower g)); OF (vecT (upper g)); OI (vecZ (counts g)); OF C; OF points; OF o] in
  exists o, run_text eval_cubic_numba_py (S fuel) (dim_name "vec_eval_cubic_splines_" (List.length g)) (arrays 6) [] (h vals) = Ok (PNone, h o) /\
    ashape o = [N; ns] /\ forall n k, 0 <= n < N -> 0 <= k < ns ->
      value_at 3 None XLinear (unif_grid g) [ns] C (row_of (zlen g) points n) [k] (acell o [n; k]) /\
      (in_domain (unif_grid g) (row_of (zlen g) points n) ->
       acell o [n; k] = tensor_spline g (row_of (zlen g) points n) (fun idx => acell C (idx ++ [k]))).
Proof.
  intros HC Hp HN Hpd Ho h. destruct (vec_splines_R g Hv C ns points N p vals) as (o & E & S & G); auto.
  exists o. split; [|split; auto].
  - unfold h. rewrite (text_vec_splines is0_6R); auto; try (rewrite ?Hp, ?Ho; reflexivity); [|rewrite (rank_C g [ns]) by auto; cbn; lia].
    fold (zlen g). now rewrite E.
  - intros n k Hn Hk. rewrite G by auto. split; [apply vR_value; auto using inb1, row_len'|]. intros Hin. now apply vR_tensor.
Qed.

Theorem text_splines_G_R fuel C ns points N p vals dvals :
  coefs_ok 3 (unif_grid g) [ns] C -> ashape points = [N; p] -> 0 <= N -> zlen g <= p ->
  ashape vals = [N; ns] -> ashape dvals = [N; zlen g; ns] ->
  let h o := [OF (vecT (lower g)); OF (vecT (upper g)); OI (vecZ (counts g)); OF C; OF points; OF (fst o); OF (snd o)] in
  exists V D, run_text eval_cubic_numba_py (S fuel) (dim_name "vec_eval_cubic_splines_G_" (List.length g)) (arrays 7) [] (h (vals, dvals)) = Ok (PNone, h (V, D)) /\
    ashape V = [N; ns] /\ ashape D = [N; zlen g; ns] /\
    forall n k F, 0 <= n < N -> 0 <= k < ns -> is_interpolant g ns C k F ->
      acell V [n; k] = F (row_of (zlen g) points n) /\
      forall m, (m < List.length g)%nat ->
        in_dim (nth m (unif_grid g) (Unif 0 0 0)%R) (nth m (row_of (zlen g) points n) 0%R) ->
        partial_at F (row_of (zlen g) points n) m (acell D [n; Z.of_nat m; k]).
Proof.
  intros HC Hp HN Hpd Ho Ho' h. destruct (gradient_inside (fun _ => 0%R) g ns C points N p (Some vals) (Some dvals)) as (V & D & E & S1 & S2 & G); auto.
  exists V, D. split; [|split; [|split]; auto].
  unfold h. rewrite (text_splines_G is0_6R); auto; try (rewrite ?Hp, ?Ho, ?Ho'; reflexivity); [|rewrite (rank_C g [ns]) by auto; cbn; lia].
  fold (zlen g). unfold vec_eval_cubic_splines_G in E.
  assert (EN : adim points 0 = Ok N). { rewrite adim_ok by (rewrite Hp; unfold zlen; cbn; lia). rewrite Hp. reflexivity. }
  rewrite EN in E. cbn [bind] in E. unfold andim in E. unfold zlen at 1 in E. rewrite (rank_C g [ns]) in E by auto.
  replace (Z.of_nat (List.length g + List.length [ns]) - 1) with (zlen g) in E by (unfold zlen; cbn; lia).
  destruct (adim_last g C ns HC) as [Ea _]. rewrite Ea in E. cbn [bind] in E.
  replace (zlen (lower g)) with (zlen g) in E by (unfold lower; now rewrite zlen_map).
  rewrite (proj2 (Z.leb_le 1 (zlen g))), (proj2 (Z.leb_le (zlen g) 4)) in E by (unfold zlen; lia). cbn [andb] in E. rewrite E. reflexivity.
Qed.
End Text.
