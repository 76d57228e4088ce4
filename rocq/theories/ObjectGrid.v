(** The [grid] attributes of the spline objects (C56), the legacy linear functions (C55), examples. *)
From Coq Require Import ZArith List Bool Reals Lra Lia QArith.
From Verif Require Import Base BaseFacts SplineModel PrefilterModel Spec EvalGeneric EvalMaster EvalProps RSum EvalValue EvalR EvalRProps EvalCases
  PrefilterR PrefilterProps ArrayModel ArrayFacts CartesianModel SpecCartesian CartesianProps CartesianR SpecBasis SpecGrad GradModel GradProps ObjectModel SpecObject ObjectProps ObjectR ObjectMore.
Import ListNotations.
Open Scope Z_scope.

Lemma valid_counts g : valid_grid (unif_grid g) -> List.Forall (fun t : R * R * Z => 2 <= snd t) g.
Proof.
  induction g as [|[[a b] n] g IH]; intros H; constructor; inversion H as [|? ? [H1 _] H2]; subst; auto.
Qed.
Lemma axis_dims g : map (fun t : R * R * Z => axis (Unif (fst (fst t)) (snd (fst t)) (snd t))) g = map axis (unif_grid g).
Proof. induction g as [|[[a b] n] g IH]; cbn; auto. now rewrite IH. Qed.

Lemma cs_grid_rows g : g <> [] -> valid_grid (unif_grid g) ->
  exists P, cs_grid (lower g) (upper g) (counts g) = Ok P /\ ashape P = [entries (counts g); zlen g] /\
    forall idx, inb (counts g) idx = true -> row_of (zlen g) P (position (counts g) idx) = node_at (unif_grid g) idx.
Proof.
  intros Hne Hv. destruct (mlinspace_enumerates g OrderC Hne (valid_counts g Hv)) as (P & E & S & HR).
  exists P. split; [exact E|]. split; [exact S|]. intros idx Hi. rewrite position_ravel by auto. rewrite axis_dims in HR. cbn [enumeration] in HR.
  assert (Hz : zlen (unif_grid g) = zlen g) by (unfold zlen; now rewrite unif_grid_length). rewrite <- Hz in *.
  change (map snd g) with (counts g) in S. rewrite <- gsize_counts in S, Hi |- *.
  rewrite (row_node (unif_grid g) P) by (auto using ravel_range). now rewrite unravel_ravel.
Qed.

Theorem cubic_grid_roundtrip g (V : arr R) junk : valid_grid (unif_grid g) -> (1 <= length g <= 4)%nat ->
  List.Forall (fun n => 0 <= n) (ashape V) -> entries (ashape V) = entries (counts g) ->
  exists s P o, cs_new (lower g) (upper g) (counts g) (Some V) = Ok s /\ cs_grid (lower g) (upper g) (counts g) = Ok P /\
    cs_call junk s (P2 P) = Ok (VArr o) /\ ashape o = [entries (counts g)] /\
    forall j, inb (ashape V) j = true -> acell o [position (ashape V) j] = acell V j.
Proof.
  intros Hv Hd HV0 HV. destruct (cubic_object_nodes g V Hv Hd HV) as (s & E & H).
  assert (Hne : g <> []) by (intros ->; cbn in Hd; lia).
  destruct (cs_grid_rows g Hne Hv) as (P & EP & SP & HP).
  assert (Hpos : List.Forall (fun n => 0 < n) (counts g)).
  { pose proof (valid_counts g Hv) as F. unfold counts. apply Forall_map. eapply Forall_impl; [|exact F]. cbn. intros; lia. }
  pose proof (zprod_pos _ Hpos) as Hzp. change (0 < entries (counts g)) in Hzp.
  assert (Hposv : List.Forall (fun n => 0 < n) (ashape V)) by (apply zprod_pos_inv; auto; change (0 < entries (ashape V)); lia).
  assert (G : forall j, inb (ashape V) j = true -> exists o, cs_call junk s (P2 P) = Ok (VArr o) /\ ashape o = [entries (counts g)] /\
     acell o [position (ashape V) j] = acell V j).
  { intros j Hj. assert (Hr : 0 <= position (ashape V) j < entries (counts g)).
    { rewrite position_ravel by auto. rewrite <- HV. now apply ravel_range. }
    set (r := position (ashape V) j) in *. set (idx := unravel (counts g) r).
    assert (Hi : inb (counts g) idx = true) by (apply unravel_inb; auto).
    assert (Hp : position (counts g) idx = r) by (rewrite position_ravel by auto; now apply ravel_unravel).
    specialize (HP idx Hi). rewrite Hp in HP.
    destruct (H idx j Hi Hj ltac:(unfold r in Hp; congruence) junk) as (_ & _ & _ & H4).
    exact (H4 P _ r SP Hr HP). }
  destruct (G (unravel (ashape V) 0)) as (o & Eo & So & _). { apply unravel_inb; auto. change (0 <= 0 < entries (ashape V)). lia. }
  exists s, P, o. repeat (split; [assumption|]). intros j Hj. destruct (G j Hj) as (o' & Eo' & _ & F). rewrite Eo in Eo'. now inversion Eo'; subst.
Qed.

Lemma ml_grid_cols g : (2 <= length g)%nat -> valid_grid (unif_grid g) ->
  exists G, ml_mlinspace (lower g) (upper g) (counts g) = Ok G /\ ashape G = [zlen g; entries (counts g)] /\
    forall idx, inb (counts g) idx = true -> map (fun i => acell G [i; position (counts g) idx]) (zrange (zlen g)) = node_at (unif_grid g) idx.
Proof.
  intros Hd Hv. unfold ml_mlinspace. rewrite counts_len. replace (zlen g =? 1) with false by (unfold zlen; lia).
  set (ax := fun t : R * R * Z => axis (gof t)).
  rewrite (mapM_all_ok _ (fun i => ax (nth (Z.to_nat i) g (0%R, 0%R, 0)))).
  2: { intros k Hk. apply zrange_In in Hk.
       rewrite (lget_ok (lower g) k 0%R), (lget_ok (upper g) k 0%R), (lget_ok (counts g) k 0) by (rewrite ?lower_len, ?upper_len, ?counts_len; lia).
       cbn [bind]. unfold lower, upper, counts.
       rewrite (map_nth' (fun t : R * R * Z => fst (fst t)) g 0%R (0%R, 0%R, 0)), (map_nth' (fun t : R * R * Z => snd (fst t)) g 0%R (0%R, 0%R, 0)),
        (map_nth' snd g 0 (0%R, 0%R, 0)) by (unfold zlen in Hk; lia).
       pose proof (nth_In g (0%R, 0%R, 0) (n := Z.to_nat k) ltac:(unfold zlen in Hk; lia)) as Hin.
       pose proof (proj1 (List.Forall_forall _ _) (valid_counts g Hv) _ Hin) as Hn.
       destruct (nth _ _ _) as [[a b] n]. unfold ax. cbn [fst snd gof] in *. now apply linspace_R. }
  cbn [bind]. replace (zlen g =? 0) with false by (unfold zlen; lia).
  assert (Eax : map (fun i => ax (nth (Z.to_nat i) g (0%R, 0%R, 0))) (zrange (zlen g)) = map axis (unif_grid g)).
  { rewrite <- (map_map (fun i => nth (Z.to_nat i) g (0%R, 0%R, 0)) ax), map_nth_zrange, unif_grid_map, map_map. reflexivity. }
  rewrite Eax, sizes_axis, gsize_counts by auto. eexists. split; [reflexivity|]. split; [reflexivity|].
  intros idx Hi. rewrite position_ravel by auto. cbn [acell]. rewrite unravel_ravel by auto.
  clear Eax Hd ax. revert idx Hi. induction g as [|[[a b] n] g IH]; intros [|i idx] Hi; try discriminate; [reflexivity|].
  assert (Hz : zlen ((a, b, n) :: g) = zlen g + 1) by (unfold zlen; cbn [length]; lia).
  rewrite Hz, zrange_cons by (unfold zlen; lia). rewrite Z.add_simpl_r. cbn [map unif_grid node_at map2 nth Z.to_nat].
  cbn in Hi. apply andb_true_iff in Hi as [H1 H2]. f_equal.
  - unfold axis. cbn [gsize]. rewrite nth_zmap; auto. lia.
  - inversion Hv as [|? ? _ Hv']; subst. rewrite map_map. change (map2 gnode (unif_grid g) idx) with (node_at (unif_grid g) idx). rewrite <- (IH Hv' idx H2).
    apply map_ext_in. intros k Hk. apply zrange_In in Hk. replace (Z.to_nat (Z.succ k)) with (S (Z.to_nat k)) by lia. reflexivity.
Qed.
Lemma ml_grid_one (t : R * R * Z) : ml_mlinspace (lower [t]) (upper [t]) (counts [t]) = Err TypeErr.
Proof. reflexivity. Qed.

(** The legacy linear functions. *)
Theorem legacy_linear g (V : arr R) idx : valid_grid (unif_grid g) -> ashape V = counts g -> inb (counts g) idx = true ->
  let pt := node_at (unif_grid g) idx in
  point_gives (r <- multilinear_interpolation (lower g) (upper g) (counts g) V (P1 pt) None ;; Ok (fst r)) [] (acell V idx) /\
  rows_give (fun p => r <- multilinear_interpolation (lower g) (upper g) (counts g) V (P2 p) None ;; Ok (fst r)) (zlen g) [] pt [] (acell V idx) /\
  (forall out, (forall p, ashape (out p) = firstn 1 (ashape p)) ->
       rows_give (fun p => r <- multilinear_interpolation (lower g) (upper g) (counts g) V (P2 p) (Some (out p)) ;;
                           match r with (VNone, Some o) => Ok (VArr o) | _ => Err TypeErr end) (zlen g) [] pt [] (acell V idx)).
Proof.
  intros Hv HV Hi pt.
  assert (HC : coefs_ok 1 (unif_grid g) [] V) by (split; [now rewrite csize1_map, gsize_counts, app_nil_r|now left]).
  assert (Hpt : length pt = length g) by (unfold pt; rewrite node_at_length, unif_grid_length; auto; now rewrite gsize_counts).
  assert (Hz : zlen pt = zlen g) by (unfold zlen; lia).
  assert (Hnd : andim V = zlen g) by (unfold andim; rewrite HV; apply counts_len).
  assert (H : value_linear None (unif_grid g) [] V pt [] (acell V idx)).
  { pose proof (eval_linear_at_node None (unif_grid g) [] V idx [] Hv HC) as X. rewrite app_nil_r in X. apply X; auto. now rewrite gsize_counts. }
  unfold multilinear_interpolation. rewrite (get_grid_ok g) by auto. cbn [bind]. split; [|split].
  - destruct (value_linear_rows _ _ _ _ _ _ H (atleast_2d pt) 1 0) as (o & E & S & F); [cbn; now rewrite Hz|lia|rewrite <- Hz; apply atleast_row|].
    destruct (point_from_row 1 g [] V pt [] (acell V idx) o HC) as (r & Er & Hr); auto. unfold eval_linear. rewrite Er. exact Hr.
  - intros points N n Hpp Hn Hr. destruct (value_linear_rows _ _ _ _ _ _ H points N n) as (o & E & S & F); auto. rewrite E. cbn [bind fst]. eauto.
  - intros out Ho points N n Hpp Hn Hr. destruct (value_linear_rows _ _ _ _ _ _ H points N n) as (o & E & S & F); auto.
    assert (Hzu : zlen (unif_grid g) = zlen g) by (unfold zlen; now rewrite unif_grid_length).
    destruct (inplace_rows 1 None XLinear (unif_grid g) [] V points o (out points) N) as (o' & E' & A1 & A2); auto.
    { now rewrite Hzu. } { lia. } { now rewrite Ho, Hpp. }
    unfold eval_linear. rewrite E'. cbn [bind snd]. exists o'. split; auto. split; [congruence|]. rewrite <- A2; auto. rewrite S. cbn. lia.
Qed.
Theorem legacy_linear_many g ns (V : arr R) idx k : valid_grid (unif_grid g) -> ashape V = counts g ++ [ns] -> inb (counts g) idx = true -> 0 <= k < ns ->
  let pt := node_at (unif_grid g) idx in
  point_gives (r <- vec_multilinear_interpolation (lower g) (upper g) (counts g) V (P1 pt) None ;; Ok (fst r)) [k] (acell V (idx ++ [k])) /\
  rows_give (fun p => r <- vec_multilinear_interpolation (lower g) (upper g) (counts g) V (P2 p) None ;; Ok (fst r)) (zlen g) [ns] pt [k] (acell V (idx ++ [k])) /\
  forall p o, vec_multilinear_interpolation (lower g) (upper g) (counts g) V p (Some o) = Err NameErr.
Proof.
  intros Hv HV Hi Hk pt.
  assert (HC : coefs_ok 1 (unif_grid g) [ns] V) by (split; [now rewrite csize1_map, gsize_counts|right; exists ns; split; auto; lia]).
  assert (Hpt : length pt = length g) by (unfold pt; rewrite node_at_length, unif_grid_length; auto; now rewrite gsize_counts).
  assert (Hz : zlen pt = zlen g) by (unfold zlen; lia).
  assert (Hin : inb [ns] [k] = true) by (cbn; lia).
  assert (H : value_linear None (unif_grid g) [ns] V pt [k] (acell V (idx ++ [k]))).
  { apply eval_linear_at_node; auto. now rewrite gsize_counts. }
  unfold vec_multilinear_interpolation. rewrite (acomp_ok V (counts g) ns 0 HV) by lia. cbn [bind].
  rewrite (get_grid_ok g) by (unfold andim; apply counts_len). cbn [bind]. split; [|split]; auto.
  - destruct (value_linear_rows _ _ _ _ _ _ H (atleast_2d pt) 1 0) as (o & E & S & F); [cbn; now rewrite Hz|lia|rewrite <- Hz; apply atleast_row|].
    destruct (point_from_row 1 g [ns] V pt [k] (acell V (idx ++ [k])) o HC) as (r & Er & Hr); auto. unfold eval_linear. rewrite Er. exact Hr.
  - intros points N n Hpp Hn Hr. destruct (value_linear_rows _ _ _ _ _ _ H points N n) as (o & E & S & F); auto. rewrite E. cbn [bind fst]. eauto.
Qed.

(** ** Examples *)
Definition oq_mem (p : bool) : memory Q := fun i => mkNd p (mkArr [2] (fun idx => match idx with [0] => (inject_Z (Z.of_nat i)) | _ => 7%Q end)).

(** A history in which the caller writes its own array after [set_values]. *)
Lemma alias_refuted : exists (m : memory Q) smin smax orders h s0 s m' last s1 p,
  ls_new m false smin smax orders None = Ok s0 /\ after ls_set h s0 m None = (s, m', last) /\
  ls_fresh false smin smax orders (option_map snd last) = Ok s1 /\
  exists x y, ls_interpolate m' s p = Ok (VNum x) /\ ls_fresh_eval s1 (option_map snd last) p = Ok (VNum y) /\ ~ (x == y)%Q.
Proof.
  set (h := [SetValues 0%nat; Write 0%nat [0] 5%Q]).
  destruct (after ls_set h (mkLS false [0%Q] [1%Q] [2] None) (oq_mem true) None) as [[s m'] last] eqn:E.
  exists (oq_mem true), [0%Q], [1%Q], [2], h, (mkLS false [0%Q] [1%Q] [2] None), s, m', last.
  cbn [h after] in E. unfold ls_set in E. cbn in E. inversion E; subst. clear E.
  eexists _, (P1 [0%Q]). split; [reflexivity|]. split; [reflexivity|]. split; [reflexivity|].
  eexists _, _. split; [vm_compute; reflexivity|]. split; [vm_compute; reflexivity|]. vm_compute. discriminate.
Qed.

(** A history with a rejected call: the third array has a wrong number of entries. *)
Definition oq_mem3 : memory Q := fun i => mkNd false (mkArr [if Nat.eqb i 2 then 5 else 3] (fun idx => match idx with [k] => inject_Z (k * Z.of_nat i + 1) | _ => 7%Q end)).
Definition oq_hist : list (event Q) := [SetValues 0%nat; SetValues 1%nat; Write 1%nat [0] 9%Q; SetValues 2%nat].
Lemma history_case : match cs_new [0%Q] [2%Q] [3] None with
  | Ok s0 => match after cs_step oq_hist s0 oq_mem3 None with
             | (s, m', Some (id, v)) => id = 1%nat /\ map (fun i => acell v [i]) [0; 1; 2] = [1; 2; 3]%Q /\
                 map (fun i => acell (nd_arr (m' 1%nat)) [i]) [0; 1; 2] = [9; 2; 3]%Q /\
                 (exists x, cs_call (fun _ => 77%Q) s (P1 [2%Q]) = Ok (VNum x) /\ (x == 3)%Q)
             | _ => False
             end
  | Err _ => False
  end.
Proof. vm_compute. split; auto. split; auto. split; auto. eexists. split; reflexivity. Qed.

Definition og : list (R * R * Z) := [(0%R, 1%R, 2); ((-1)%R, 1%R, 3)].
Lemma og_valid : valid_grid (unif_grid og).
Proof. repeat constructor; cbn; try lia; lra. Qed.
Definition oflat (n : Z) : arr R := mkArr [n] (fun idx => IZR (nth 0 idx 0 * nth 0 idx 0)).
Lemma object_case : exists s, cs_new (lower og) (upper og) (counts og) (Some (oflat 6)) = Ok s /\ cs_gives og s [1; 0]%R 16%R.
Proof.
  destruct (cubic_object_nodes og (oflat 6) og_valid ltac:(cbn; lia) eq_refl) as (s & E & H). exists s. split; auto.
  specialize (H [1; 1] [4] eq_refl eq_refl eq_refl). cbn [node_at map2 unif_grid og gnode acell oflat nth] in H.
  replace [1; 0]%R with [0 + 1 * ((1 - 0) / (2 - 1)); -1 + 1 * ((1 - -1) / (3 - 1))]%R; [exact H|]. f_equal; [field|f_equal; field].
Qed.
Lemma objects_case nan : exists s, mcs_new nan (lower og) (upper og) (counts og) (Some (mkArr [6; 2] (fun idx => IZR (nth 0 idx 0 + 10 * nth 1 idx 0)))) = Ok s /\ mcs_gives og s 2 [1; 0]%R 1 14%R.
Proof.
  destruct (cubics_object_nodes nan og [6] 2 (mkArr [6; 2] (fun idx => IZR (nth 0 idx 0 + 10 * nth 1 idx 0))) og_valid ltac:(cbn; lia) eq_refl ltac:(lia) eq_refl) as (s & E & H). exists s. split; auto.
  specialize (H [1; 1] 1 [4; 1] eq_refl ltac:(lia) eq_refl eq_refl). cbn [node_at map2 unif_grid og gnode acell nth] in H.
  replace [1; 0]%R with [0 + 1 * ((1 - 0) / (2 - 1)); -1 + 1 * ((1 - -1) / (3 - 1))]%R; [exact H|]. f_equal; [field|f_equal; field].
Qed.
Lemma linear_case : exists s, ls_new (only (oflat 6)) false (lower og) (upper og) (counts og) (Some 0%nat) = Ok s /\ ls_gives (only (oflat 6)) og s [] [1; 0]%R [] 16%R.
Proof.
  destruct (linear_object_nodes (only (oflat 6)) false og [] 0 0%nat og_valid eq_refl ltac:(lia) eq_refl) as (s & E & H). exists s. split; auto.
  specialize (H [1; 1] [] [4] eq_refl eq_refl eq_refl eq_refl). cbn [node_at map2 unif_grid og gnode acell oflat nth only nd_arr ls_comps] in H.
  replace [1; 0]%R with [0 + 1 * ((1 - 0) / (2 - 1)); -1 + 1 * ((1 - -1) / (3 - 1))]%R; [exact H|]. f_equal; [field|f_equal; field].
Qed.

(** Five dimensions: data 0 and data 1 give the same object. *)
Definition og5 : list (R * R * Z) := [(0%R, 1%R, 2); (0%R, 1%R, 2); (0%R, 1%R, 2); (0%R, 1%R, 2); (0%R, 1%R, 2)].
Lemma cubics_five_refuted nan : exists (V V' : arr R) s s' idx, valid_grid (unif_grid og5) /\
  ashape V = counts og5 ++ [1] /\ ashape V' = ashape V /\
  mcs_new nan (lower og5) (upper og5) (counts og5) (Some V) = Ok s /\ mcs_new nan (lower og5) (upper og5) (counts og5) (Some V') = Ok s' /\
  inb (counts og5 ++ [1]) (idx ++ [0]) = true /\ acell V (idx ++ [0]) <> acell V' (idx ++ [0]) /\
  forall junk, mcs_call junk s (P1 (node_at (unif_grid og5) idx)) = mcs_call junk s' (P1 (node_at (unif_grid og5) idx)).
Proof.
  set (V := mkArr (counts og5 ++ [1]) (fun _ => 0%R)). set (V' := mkArr (counts og5 ++ [1]) (fun _ => 1%R)).
  destruct (cubics_five_dims nan og5 1 V V' ltac:(cbn; lia) ltac:(lia) eq_refl eq_refl) as (s & s' & E & E' & H).
  exists V, V', s, s', [0; 0; 0; 0; 0]. split; [repeat constructor; cbn; try lia; lra|].
  repeat (split; [reflexivity || assumption|]). split; [cbn; lra|]. intros. apply H.
Qed.
Lemma grid_case : og <> [] /\ valid_grid (unif_grid og) /\ (2 <= length og <= 4)%nat /\ entries (counts og) = 6.
Proof. split; [discriminate|]. split; [exact og_valid|]. split; [cbn; lia|reflexivity]. Qed.
