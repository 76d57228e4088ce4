(** Proofs for C34 (rejections), C35, C36. *)
From Coq Require Import ZArith List Bool Reals Lia Lra ZifyBool.
From Flocq Require Import Core.Raux.
From Verif Require Import Base BaseFacts ArrayModel ArrayFacts SplineModel PrefilterModel Spec CartesianModel SpecCartesian CartesianProps EvalR EvalRProps EvalCases PrefilterProps PrefilterCases.
Import ListNotations.
Open Scope Z_scope.

Section Any.
Context {T : Type} {NT : Num T}.
Lemma repeat_1d_fails (x : list T) K i out : (exists R n, ashape out = [R; n]) -> K * zlen x = 0 -> repeat_1d x K i out = Err ZeroDivErr.
Proof. intros (R & n & S) H. unfold repeat_1d, adim. rewrite S. cbn. now rewrite (proj2 (Z.eqb_eq _ _) H). Qed.

Lemma repeat_1d_empty (x : list T) K i out n : ashape out = [0; n] -> K * zlen x <> 0 -> repeat_1d x K i out = Ok out.
Proof.
  intros S H. unfold repeat_1d, adim. rewrite S. cbn [lget]. unfold lget. cbn [Z.ltb Z.compare Z.to_nat nth_error bind].
  destruct (Z.eqb_spec (K * zlen x) 0); [congruence|]. rewrite Z.div_0_l by auto.
  assert (forall N, N <= zlen x -> foldM (fun out n => val <- lget x n ;; foldM (fun out k => foldM (fun out l => aset out [k * zlen x * 0 + n * 0 + l; i] val) (zrange 0) out) (zrange K) out) (zrange N) out = Ok out) as G; [|apply G; lia].
  intros N. destruct (Z.le_gt_cases N 0); [rewrite (zrange_nil N) by auto; reflexivity|].
  intros HN. destruct (foldM_zrange (fun out n => val <- lget x n ;; foldM (fun out k => foldM (fun out l => aset out [k * zlen x * 0 + n * 0 + l; i] val) (zrange 0) out) (zrange K) out) (fun _ o => o = out) N out) as (o & E & ->); auto; try lia.
  intros k s Hk ->. destruct (lget x k) as [v|e] eqn:El.
  - cbn [bind]. exists out. split; auto. generalize (zrange K). intros l. induction l; [reflexivity|]. cbn. auto.
  - exfalso. destruct x as [|a x']; [rewrite zlen_nil in *; lia|]. rewrite (lget_ok _ k a) in El by lia. discriminate.
Qed.

Theorem cartesian_empty_axis (nodes : list (list T)) ord : In [] nodes -> cartesian nodes ord = Err ZeroDivErr.
Proof.
  intros Hin. unfold cartesian. destruct nodes as [|x0 nodes']; [destruct Hin|]. set (nodes := x0 :: nodes') in *. clearbody nodes. clear x0 nodes'.
  fold (reps ord (map zlen nodes)).
  assert (Z0 : zprod (map zlen nodes) = 0).
  { clear -Hin. induction nodes as [|x nodes IH]; [destruct Hin|]. cbn [map]. rewrite zprod_cons. destruct Hin as [->|H]; [reflexivity|rewrite IH by auto; ring]. }
  rewrite Z0.
  assert (G : forall l, (forall i, In i l -> 0 <= i < zlen nodes) -> (exists i, In i l /\ nth (Z.to_nat i) nodes [] = []) ->
    foldM (fun out i => x <- lget nodes i ;; K <- lget (reps ord (map zlen nodes)) i ;; repeat_1d x K i out) l (azeros [0; zlen nodes]) = Err ZeroDivErr).
  { induction l as [|i l IH]; intros Hl (j & Hj & Ej); [destruct Hj|]. cbn [foldM].
    destruct (nodes_split nodes i (Hl i (or_introl eq_refl))) as (pre & x & post & En & Hlp & Hx & _).
    rewrite (lget_ok nodes i []) by (apply Hl; now left). cbn [bind]. rewrite Hx.
    assert (EK : lget (reps ord (map zlen nodes)) i = Ok (outer_c ord (map zlen pre) (map zlen post))).
    { rewrite En, map_app. cbn [map]. rewrite <- Hlp, <- (zlen_map zlen pre). apply lget_reps. }
    rewrite EK. cbn [bind]. destruct (Z.eq_dec (outer_c ord (map zlen pre) (map zlen post) * zlen x) 0) as [Hz|Hnz].
    - rewrite repeat_1d_fails; auto. exists 0, (zlen nodes). reflexivity.
    - rewrite repeat_1d_empty with (n := zlen nodes) by auto. cbn [bind]. apply IH; [intros; apply Hl; now right|].
      destruct Hj as [->|Hj]; [|exists j; auto]. exfalso. rewrite Hx in Ej. subst x. rewrite zlen_nil in Hnz. lia. }
  apply G; [intros i; apply zrange_In|]. apply In_nth with (d := []) in Hin as (k & Hk & Ek).
  exists (Z.of_nat k). split; [apply zrange_In; unfold zlen; lia|]. now rewrite Nat2Z.id.
Qed.
End Any.

(** ** linspace *)
Lemma linspace_R a b n : 2 <= n -> linspace a b n = Ok (axis (Unif a b n)).
Proof.
  intros Hn. unfold linspace. destruct (Z.ltb_spec n 0); [lia|]. destruct (Z.ltb_spec 0 (n - 1)); [|lia]. f_equal. unfold axis. cbn [gsize].
  apply map_ext_in. intros i Hi. apply zrange_In in Hi. cbn [gnode]. cbn [n_ofZ n_div n_mul n_add n_sub n_is0 NumR].
  assert (Hd : IZR (n - 1) = (IZR n - 1)%R) by (rewrite minus_IZR; auto). assert (0 < IZR n - 1)%R by (rewrite <- Hd; apply IZR_lt; lia).
  destruct (Z.eqb_spec i (n - 1)) as [->|].
  - rewrite Hd. field. lra.
  - rewrite Hd. destruct (Reqb0 _); field; lra.
Qed.
Lemma axis_length g : 0 <= gsize g -> zlen (axis g) = gsize g.
Proof. intros. unfold axis. rewrite zlen_map, zlen_zrange; auto. Qed.
Lemma valid_size g : valid_dim g -> 2 <= gsize g. Proof. now intros []. Qed.

Lemma lget_some {A} (l : list A) i t : 0 <= i -> nth_error l (Z.to_nat i) = Some t -> lget l i = Ok t.
Proof. intros Hi E. unfold lget. destruct (Z.ltb_spec i 0); [lia|]. now rewrite E. Qed.
Lemma nodes_unfold (grid : list (gdim R)) : valid_grid grid -> all_uniform grid -> nodes grid = cartesian (map axis grid) OrderC.
Proof.
  intros Hv Hu. unfold nodes, mlinspace.
  assert (exists l, mapM (fun g : gdim R => match g with Unif a b n => Ok (a, b, n) | Nonunif gc => x <- lget gc 0 ;; y <- lget gc 1 ;; z <- lget gc 2 ;; Ok (x, y, trunc z) end) grid = Ok l
     /\ grid = map (fun t => Unif (fst (fst t)) (snd (fst t)) (snd t)) l) as (l & -> & El).
  { clear Hv. induction Hu as [|[a b n|gc] grid Hg Hu IH].
    - exists []. auto.
    - destruct IH as (l & E & ->). exists ((a, b, n) :: l). cbn [mapM bind]. rewrite E. auto.
    - elim Hg. exact I. }
  cbn [bind]. rewrite (mapM_all_ok _ (fun i => axis (nth (Z.to_nat i) grid (Unif 0%R 0%R 0)))).
  - cbn [bind]. f_equal. rewrite zlen_map. transitivity (map axis (map (fun i => nth (Z.to_nat i) grid (Unif 0%R 0%R 0)) (zrange (zlen grid)))).
    + rewrite map_map. rewrite El, zlen_map. reflexivity.
    + now rewrite map_nth_zrange.
  - intros i Hi. apply zrange_In in Hi. rewrite zlen_map in Hi.
    destruct (nth_error l (Z.to_nat i)) as [[[a b] n]|] eqn:Et; [|apply nth_error_None in Et; unfold zlen in Hi; lia].
    rewrite (lget_some _ i a), (lget_some _ i b), (lget_some _ i n) by (try lia; rewrite nth_error_map, Et; reflexivity). cbn [bind fst snd option_map].
    assert (Eg : nth_error grid (Z.to_nat i) = Some (Unif a b n)) by (rewrite El, nth_error_map, Et; reflexivity).
    rewrite (nth_error_nth _ _ _ Eg). apply linspace_R. apply nth_error_In in Eg. unfold valid_grid in Hv. rewrite Forall_forall in Hv. now apply Hv, valid_size in Eg.
Qed.

Lemma sizes_axis (grid : list (gdim R)) : valid_grid grid -> map zlen (map axis grid) = map gsize grid.
Proof. intros Hv. rewrite map_map. apply map_ext_in. intros g Hg. apply axis_length. unfold valid_grid in Hv. rewrite Forall_forall in Hv. apply Hv, valid_size in Hg. lia. Qed.
Lemma axes_ne (grid : list (gdim R)) : valid_grid grid -> Forall (fun x => x <> []) (map axis grid).
Proof. intros Hv. apply Forall_map. eapply Forall_impl; [|exact Hv]. intros g Hg E. apply valid_size in Hg. pose proof (axis_length g ltac:(lia)) as H. rewrite E in H. rewrite zlen_nil in H. lia. Qed.

Theorem nodes_enumerates grid : grid <> [] -> valid_grid grid -> all_uniform grid ->
  exists P, nodes grid = Ok P /\ ashape P = [zprod (map gsize grid); zlen grid] /\ rows_of P = product (map axis grid).
Proof.
  intros Hne Hv Hu. rewrite nodes_unfold by auto.
  destruct (cartesian_enumerates 0%R (map axis grid) OrderC) as (P & E & S & V).
  - destruct grid; [congruence|discriminate].
  - now apply axes_ne.
  - exists P. rewrite sizes_axis, zlen_map in S by auto. auto.
Qed.

Lemma row_node grid P r : valid_grid grid -> ashape P = [zprod (map gsize grid); zlen grid] -> rows_of P = product (map axis grid) ->
  0 <= r < zprod (map gsize grid) -> row_of (zlen grid) P r = node_at grid (unravel (map gsize grid) r).
Proof.
  intros Hv S V Hr. assert (E : nth (Z.to_nat r) (rows_of P) [] = row_of (zlen grid) P r).
  { unfold rows_of. rewrite S. now apply nth_zmap. }
  rewrite <- E, V. rewrite (product_nth 0%R).
  - rewrite sizes_axis by auto.
    assert (Hin : inb (map gsize grid) (unravel (map gsize grid) r) = true).
    { apply unravel_inb; auto. apply Forall_map. eapply Forall_impl; [|exact Hv]. intros g Hg. apply valid_size in Hg. lia. }
    revert Hin. generalize (unravel (map gsize grid) r). clear. unfold node_at. induction grid as [|g grid IH]; intros [|i idx] H; try discriminate; [reflexivity|].
    cbn [map inb] in H. apply andb_true_iff in H as [H1 H2]. cbn [map map2]. rewrite IH by auto. f_equal. unfold axis. apply nth_zmap. lia.
  - apply Forall_map. eapply Forall_impl; [|exact Hv]. intros g Hg. apply valid_size in Hg. rewrite axis_length; lia.
  - now rewrite sizes_axis.
Qed.

Lemma tabulate_ok f grid : grid <> [] -> valid_grid grid -> all_uniform grid ->
  exists V, tabulate f grid = Ok V /\ ashape V = map gsize grid /\
  forall idx, inb (map gsize grid) idx = true -> acell V idx = f (node_at grid idx).
Proof.
  intros Hne Hv Hu. destruct (nodes_enumerates grid Hne Hv Hu) as (P & E & S & V). unfold tabulate. rewrite E. cbn [bind].
  rewrite areshape_ok by (cbn; lia). eexists. split; [reflexivity|]. split; [reflexivity|]. intros idx Hi. cbn [acell ashape unravel zprod fold_right nth].
  rewrite Z.div_1_r. rewrite row_node with (P := P); auto; [|now apply ravel_range]. now rewrite unravel_ravel.
Qed.

Theorem nodes_then_linear f grid mode : grid <> [] -> valid_grid grid -> all_uniform grid ->
  exists P V, nodes grid = Ok P /\ ashape P = [zprod (map gsize grid); zlen grid] /\ tabulate f grid = Ok V /\
  forall r, 0 <= r < zprod (map gsize grid) -> value_linear mode grid [] V (row_of (zlen grid) P r) [] (f (row_of (zlen grid) P r)).
Proof.
  intros Hne Hv Hu. destruct (nodes_enumerates grid Hne Hv Hu) as (P & E & S & VP). destruct (tabulate_ok f grid Hne Hv Hu) as (V & EV & SV & VV).
  exists P, V. split; auto. split; auto. split; auto. intros r Hr. rewrite row_node with (P := P) by auto.
  assert (Hin : inb (map gsize grid) (unravel (map gsize grid) r) = true).
  { apply unravel_inb; auto. apply Forall_map. eapply Forall_impl; [|exact Hv]. intros g Hg. apply valid_size in Hg. lia. }
  rewrite <- VV by auto. rewrite <- (app_nil_r (unravel _ r)) at 2. apply eval_linear_at_node; auto.
  split; [|now left]. rewrite SV, app_nil_r. apply map_ext. intros g. unfold csize. lia.
Qed.
Theorem nodes_then_cubic f grid mode : valid_grid grid -> all_uniform grid -> supported_dim grid ->
  exists P V C, nodes grid = Ok P /\ ashape P = [zprod (map gsize grid); zlen grid] /\ tabulate f grid = Ok V /\
  filter_cubic grid V None = Ok (VArr C, None) /\
  forall r, 0 <= r < zprod (map gsize grid) -> value_cubic mode grid [] C (row_of (zlen grid) P r) [] (f (row_of (zlen grid) P r)).
Proof.
  intros Hv Hu Hs. assert (Hne : grid <> []) by (intros ->; destruct Hs; cbn in *; lia).
  destruct (nodes_enumerates grid Hne Hv Hu) as (P & E & S & VP). destruct (tabulate_ok f grid Hne Hv Hu) as (V & EV & SV & VV).
  assert (Hok : values_ok grid [] V) by (split; [rewrite SV, app_nil_r; auto|now left]).
  assert (Hin : forall r, 0 <= r < zprod (map gsize grid) -> inb (map gsize grid) (unravel (map gsize grid) r) = true).
  { intros r Hr. apply unravel_inb; auto. apply Forall_map. eapply Forall_impl; [|exact Hv]. intros g Hg. apply valid_size in Hg. lia. }
  assert (Hpos : 0 < zprod (map gsize grid)). { apply zprod_pos. apply Forall_map. eapply Forall_impl; [|exact Hv]. intros g Hg. apply valid_size in Hg. lia. }
  destruct (filter_interpolates mode grid [] V (unravel (map gsize grid) 0) [] Hv Hu Hs Hok (Hin 0 ltac:(lia)) eq_refl) as (C & EC & _).
  exists P, V, C. split; auto. split; auto. split; auto. split; auto. intros r Hr.
  destruct (filter_interpolates mode grid [] V (unravel (map gsize grid) r) [] Hv Hu Hs Hok (Hin r Hr) eq_refl) as (C' & EC' & W).
  rewrite EC in EC'. injection EC' as <-. rewrite row_node with (P := P) by auto. rewrite <- VV by auto. rewrite app_nil_r in W. exact W.
Qed.

(** ** UCGrid, CGrid *)
Theorem ucgrid_accepts (args : list (gspec R)) :
  (Forall spec_tuple_ok args -> ucgrid args = Ok args) /\ (~ Forall spec_tuple_ok args -> ucgrid args = Err AssertErr).
Proof.
  unfold ucgrid. set (f := fun s => match s with STuple a b n => _ | _ => _ end). 
  assert (Hf : forall s, (spec_tuple_ok s /\ f s = Ok tt) \/ (~ spec_tuple_ok s /\ f s = Err AssertErr)).
  { intros [a b n|x|]; cbn.
    - unfold n_ltb; cbn. destruct (Rlt_bool_spec a b); cbn [negb].
      + destruct (Z.ltb_spec 1 n); cbn [negb]; [left|right]; split; auto; lia.
      + right. split; auto. lra.
    - right. split; auto.
    - right. split; auto. }
  induction args as [|s args [IH1 IH2]]; split; intros H.
  - reflexivity.
  - elim H. constructor.
  - inversion H; subst. cbn [mapM]. destruct (Hf s) as [[_ E]|[N _]]; [|tauto]. rewrite E. cbn [bind].
    specialize (IH1 H3). destruct (mapM f args); [reflexivity|discriminate].
  - cbn [mapM]. destruct (Hf s) as [[Y E]|[N E]]; rewrite E; cbn [bind]; [|reflexivity].
    assert (N : ~ Forall spec_tuple_ok args) by (intros F; apply H; now constructor). specialize (IH2 N). destruct (mapM f args); cbn in *; [discriminate|congruence].
Qed.
Theorem cgrid_accepts (args : list (gspec R)) :
  (Forall spec_ok args -> cgrid args = Ok args) /\ (~ Forall spec_ok args -> exists e, cgrid args = Err e).
Proof.
  unfold cgrid. set (f := fun s => match s with STuple a b n => _ | _ => _ end). 
  assert (Hf : forall s, (spec_ok s /\ f s = Ok tt) \/ (~ spec_ok s /\ exists e, f s = Err e)).
  { intros [a b n|x|]; cbn.
    - unfold n_ltb; cbn. destruct (Rlt_bool_spec a b); cbn [negb].
      + destruct (Z.ltb_spec 1 n); cbn [negb]; [left|right]; split; eauto; lia.
      + right. split; eauto. lra.
    - unfold andim, adim. destruct (ashape x) as [|n [|m l]]; cbn.
      + right. split; [intros (n & E & _); discriminate|]. change (zlen [] =? 1) with false. cbn. eauto.
      + change (zlen [n] =? 1) with true. unfold lget; cbn. destruct (Z.leb_spec 2 n); cbn; [left|right]; split; eauto. intros (n' & E' & ?). injection E' as <-. lia.
      + rewrite (proj2 (Z.eqb_neq _ 1)) by (rewrite !zlen_cons; pose proof (zlen_nonneg l); lia). cbn. right. split; eauto. intros (n' & E & _). discriminate.
    - right. split; eauto. }
  induction args as [|s args [IH1 IH2]]; split; intros H.
  - reflexivity.
  - elim H. constructor.
  - inversion H; subst. cbn [mapM]. destruct (Hf s) as [[_ E]|[N _]]; [|tauto]. rewrite E. cbn [bind].
    specialize (IH1 H3). destruct (mapM f args); [reflexivity|discriminate].
  - cbn [mapM]. destruct (Hf s) as [[Y E]|[N [e E]]]; rewrite E; cbn [bind]; [|eauto].
    assert (N : ~ Forall spec_ok args) by (intros F; apply H; now constructor). destruct (IH2 N) as [e He]. destruct (mapM f args); cbn in *; [discriminate|eauto].
Qed.
Theorem ucgrid_valid (args : list (gspec R)) : Forall spec_tuple_ok args ->
  exists grid, map spec_dim args = map Some grid /\ valid_grid grid /\ all_uniform grid.
Proof.
  induction 1 as [|[a b n|x|] args H Hs (grid & E & V & U)]; [exists []; repeat constructor| |destruct H..].
  exists (Unif a b n :: grid). cbn. rewrite E. split; auto. destruct H. split; constructor; auto. split; cbn; auto; lia.
Qed.
(** CGrid accepts an unsorted array, and [nodes] of a grid with an array returns other points. *)
Definition bad_arr : arr R := mkArr [2] (fun idx => if nth 0 idx 0 =? 0 then 1%R else 0%R).
Lemma cgrid_unsorted : exists args grid, cgrid args = Ok args /\ map spec_dim args = map Some grid /\ ~ valid_grid grid.
Proof.
  exists [SArr bad_arr], [Nonunif [1; 0]%R]. split; [|split; [reflexivity|]].
  - apply cgrid_accepts. constructor; [|constructor]. exists 2. split; [reflexivity|lia].
  - intros H. inversion H; subst. destruct H2 as [_ H2]. specialize (H2 0 ltac:(vm_compute; split; [discriminate|reflexivity])). change (Z.to_nat (0 + 1)) with 1%nat in H2. change (Z.to_nat 0) with 0%nat in H2. cbn [nth] in H2. lra.
Qed.
Definition arr4 : arr R := mkArr [4] (fun idx => nth (Z.to_nat (nth 0 idx 0)) [0; 1; 2; 4]%R 0%R).
Definition arr2 : arr R := mkArr [2] (fun idx => nth (Z.to_nat (nth 0 idx 0)) [0; 1]%R 0%R).
Ltac nthc := repeat match goal with |- context[Z.to_nat ?e] => let v := eval vm_compute in (Z.to_nat e) in change (Z.to_nat e) with v end; cbn [nth]; lra.
Lemma nodes_array_wrong : 
  (exists args grid, cgrid args = Ok args /\ map spec_dim args = map Some grid /\ valid_grid grid /\
     exists P, nodes grid = Ok P /\ rows_of P <> product (map axis grid)) /\
  (exists args grid, cgrid args = Ok args /\ map spec_dim args = map Some grid /\ valid_grid grid /\ nodes grid = Err IndexErr).
Proof.
  split.
  - exists [SArr arr4], [Nonunif [0; 1; 2; 4]%R]. split; [|split; [reflexivity|]].
    { apply cgrid_accepts. constructor; [|constructor]. exists 4. split; [reflexivity|lia]. }
    split. { constructor; [|constructor]. split; [vm_compute; discriminate|]. intros i Hi. change (gsize _) with 4 in Hi.
      assert (i = 0 \/ i = 1 \/ i = 2) as [->|[->| ->]] by lia; nthc. }
    assert (Et : trunc 2%R = 2). { unfold trunc. cbn. destruct (Rlt_bool_spec 2 0); [lra|]. apply (Zfloor_IZR 2). }
    assert (EN : nodes [Nonunif [0; 1; 2; 4]%R] = nodes [Unif 0%R 1%R 2]).
    { unfold nodes. cbn [mapM bind]. change (lget [0; 1; 2; 4]%R 0) with (@Ok R 0%R). change (lget [0; 1; 2; 4]%R 1) with (@Ok R 1%R). change (lget [0; 1; 2; 4]%R 2) with (@Ok R 2%R). cbn [bind]. rewrite Et. reflexivity. }
    destruct (nodes_enumerates [Unif 0%R 1%R 2]) as (P & E & S & V); [discriminate|constructor; [|constructor]; split; cbn; [lia|lra]|constructor; [|constructor]; cbn; auto|].
    exists P. rewrite EN. split; auto. rewrite V. intros C. apply (f_equal (@length _)) in C. vm_compute in C. discriminate.
  - exists [SArr arr2], [Nonunif [0; 1]%R]. split; [|split; [reflexivity|]].
    { apply cgrid_accepts. constructor; [|constructor]. exists 2. split; [reflexivity|lia]. }
    split. { constructor; [|constructor]. split; [vm_compute; discriminate|]. intros i Hi. change (gsize _) with 2 in Hi. assert (i = 0) as -> by lia. nthc. }
    reflexivity.
Qed.
Theorem ucgrid_nodes (args : list (gspec R)) : args <> [] -> ucgrid args = Ok args ->
  exists grid P, map spec_dim args = map Some grid /\ valid_grid grid /\ all_uniform grid /\
    nodes grid = Ok P /\ rows_of P = product (map axis grid).
Proof.
  intros Hne E. assert (Forall spec_tuple_ok args) as F.
  { assert (D : forall s : gspec R, {spec_tuple_ok s} + {~ spec_tuple_ok s}).
    { intros [a b n|x|]; cbn; [|right; tauto..]. destruct (Rlt_dec a b), (Z_lt_dec 1 n); [left|right..]; tauto. }
    destruct (Forall_dec spec_tuple_ok D args) as [|N]; auto. apply ucgrid_accepts in N. congruence. }
  destruct (ucgrid_valid args F) as (grid & Eg & V & U). exists grid.
  destruct (nodes_enumerates grid) as (P & EP & _ & VP); auto.
  - intros ->. destruct args; [congruence|discriminate].
  - exists P. auto.
Qed.
Theorem mlinspace_enumerates (dims : list (R * R * Z)) ord : dims <> [] -> Forall (fun t => 2 <= snd t) dims ->
  exists out, mlinspace (map (fun t => fst (fst t)) dims) (map (fun t => snd (fst t)) dims) (map snd dims) ord = Ok out /\
    ashape out = [zprod (map snd dims); zlen dims] /\
    rows_of out = enumeration ord (map (fun t => axis (Unif (fst (fst t)) (snd (fst t)) (snd t))) dims).
Proof.
  intros Hne Hd. set (ax := fun t : R * R * Z => axis (Unif (fst (fst t)) (snd (fst t)) (snd t))).
  assert (E : mlinspace (map (fun t => fst (fst t)) dims) (map (fun t => snd (fst t)) dims) (map snd dims) ord = cartesian (map ax dims) ord).
  { unfold mlinspace. rewrite (mapM_all_ok _ (fun i => ax (nth (Z.to_nat i) dims (0%R, 0%R, 0)))).
    - cbn [bind]. f_equal. rewrite zlen_map, <- (map_map (fun i => nth (Z.to_nat i) dims (0%R, 0%R, 0)) ax). now rewrite map_nth_zrange.
    - intros i Hi. apply zrange_In in Hi. rewrite zlen_map in Hi.
      destruct (nth_error dims (Z.to_nat i)) as [[[a b] n]|] eqn:Et; [|apply nth_error_None in Et; unfold zlen in Hi; lia].
      rewrite (lget_some _ i a), (lget_some _ i b), (lget_some _ i n) by (try lia; rewrite nth_error_map, Et; reflexivity). cbn [bind].
      rewrite (nth_error_nth _ _ _ Et). apply linspace_R. apply nth_error_In in Et. rewrite Forall_forall in Hd. apply (Hd _ Et). }
  assert (Hs : map zlen (map ax dims) = map snd dims).
  { rewrite map_map. apply map_ext_in. intros t Ht. rewrite Forall_forall in Hd. specialize (Hd t Ht). unfold ax. rewrite axis_length; cbn [gsize]; lia. }
  destruct (cartesian_enumerates 0%R (map ax dims) ord) as (out & Eo & So & Vo).
  - destruct dims; [congruence|discriminate].
  - apply Forall_map. eapply Forall_impl; [|exact Hd]. intros t Ht Ez. apply (f_equal zlen) in Ez. unfold ax in Ez. rewrite axis_length in Ez; cbn [gsize] in *; [|lia]. rewrite zlen_nil in Ez. lia.
  - exists out. rewrite E. split; auto. rewrite Hs, zlen_map in So. auto.
Qed.

(** ** [nodes] of array dimensions *)
Lemma trunc_toward c k : toward_zero c k -> trunc c = k.
Proof.
  intros [H1 H2]. unfold trunc. cbn. destruct (Rlt_bool_spec c 0) as [H|H].
  - rewrite (Zfloor_imp (- k)); [lia|]. rewrite plus_IZR, opp_IZR. specialize (H2 H). lra.
  - apply Zfloor_imp. rewrite plus_IZR. apply H1; auto.
Qed.
Lemma nodes_as_triples grid grid' : Forall2 read_as_triple grid grid' -> nodes grid = nodes grid'.
Proof.
  intros H. unfold nodes. f_equal. induction H as [|g g' l l' Hg _ IH]; [reflexivity|]. cbn [mapM]. rewrite IH.
  destruct g as [a b n|gc]; cbn in Hg; [now subst|]. destruct Hg as (a & b & c & l0 & k & -> & Hk & ->).
  change (lget (a :: b :: c :: l0) 0) with (Ok a). change (lget (a :: b :: c :: l0) 1) with (Ok b). change (lget (a :: b :: c :: l0) 2) with (Ok c).
  cbn [bind]. now rewrite (trunc_toward c k).
Qed.
Lemma nodes_short grid : Exists too_short grid -> nodes grid = Err IndexErr.
Proof.
  intros H. unfold nodes.
  match goal with |- (abn <- mapM ?f grid ;; _) = _ => set (F := f) end.
  assert (HE : forall g e, F g = Err e -> e = IndexErr).
  { intros [a b n|gc] e; [discriminate|]. destruct gc as [|a [|b [|c l]]]; intros X;
      [injection X; auto|injection X; auto|injection X; auto|discriminate X]. }
  assert (X : mapM F grid = Err IndexErr); [|now rewrite X].
  induction H as [g l Hg|g l Hl IH]; cbn [mapM].
  - destruct g as [a b n|gc]; cbn in Hg; [contradiction|]. destruct gc as [|? [|? [|? ?]]]; cbn in Hg; try lia; reflexivity.
  - destruct (F g) as [t|e] eqn:E; cbn [bind]; [now rewrite IH|]. now rewrite (HE _ _ E).
Qed.
Lemma ex_triples : Forall2 read_as_triple [Nonunif [-1; 1; 5/2; 9]; Unif 0 1 3; Nonunif [0; 1; -5/2]]%R [Unif (-1) 1 2; Unif 0 1 3; Unif 0 1 (-2)]%R /\
  Exists too_short [Unif 0 1 3; Nonunif [0; 1]]%R.
Proof.
  split.
  - constructor; [|constructor; [reflexivity|constructor; [|constructor]]].
    + exists (-1)%R, 1%R, (5/2)%R, [9%R], 2. split; [reflexivity|]. split; [split; intros; cbn; lra|reflexivity].
    + exists 0%R, 1%R, (-5/2)%R, [], (-2). split; [reflexivity|]. split; [split; intros; cbn; lra|reflexivity].
  - right. left. cbn. lia.
Qed.
