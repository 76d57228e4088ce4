(** The functions of eval_cubic_numba.py agree with each other, in any arithmetic. *)
From Coq Require Import ZArith List Bool String Lia.
From Verif Require Import Base BaseFacts SplineModel Spec GradModel NumbaModel PySyntax PySem SpecText SrcEvalCubicNumba NumbaProps.
Import ListNotations.
Open Scope list_scope.
Open Scope Z_scope.

Section Agree.
Context {T : Type} {NT : Num T}.

Lemma foldM_inv {S A} (f : S -> A -> res S) (I : list A -> S -> Prop) : forall l pre s s',
  I pre s -> (forall pre s a s', I pre s -> f s a = Ok s' -> I (pre ++ [a]) s') -> foldM f l s = Ok s' -> I (pre ++ l) s'.
Proof.
  induction l as [|a l IH]; intros pre s s' H0 Hs E; cbn in E.
  - injection E as <-. now rewrite app_nil_r.
  - destruct (f s a) as [s1|] eqn:E1; [|discriminate]. cbn in E. change (a :: l) with ([a] ++ l). rewrite app_assoc. eapply IH; eauto.
Qed.

(** Assignments to cells of an array: afterwards each cell holds the last value assigned to it. *)
Lemma aset_inv (a : arr T) idx v a' : aset a idx v = Ok a' -> acell a' idx = v /\ forall j, j <> idx -> acell a' j = acell a j.
Proof.
  unfold aset. destruct (inb _ _); [|destruct (_ =? _); discriminate]. intros [= <-]. cbn. rewrite idx_eqb_refl. split; auto.
  intros j Hj. now rewrite idx_eqb_neq.
Qed.

Lemma zrange_mono n k : 0 <= k < n -> In k (zrange n).
Proof. intros. now apply zrange_In. Qed.

Lemma foldM_cells (f : Z -> res T) (ix : Z -> list Z) l (o o' : arr T) : (forall i j, ix i = ix j -> i = j) ->
  foldM (fun o i => v <- f i ;; aset o (ix i) v) l o = Ok o' ->
  (forall i, In i l -> f i = Ok (acell o' (ix i))) /\ (forall idx, (forall i, idx <> ix i) -> acell o' idx = acell o idx).
Proof.
  intros Hinj E.
  apply (foldM_inv (fun o i => v <- f i ;; aset o (ix i) v) (fun l o' => (forall i, In i l -> f i = Ok (acell o' (ix i))) /\ (forall idx, (forall i, idx <> ix i) -> acell o' idx = acell o idx)) l [] o o'); auto.
  - split; [intros i []|auto].
  - intros pre s a s' [G O] E1. destruct (f a) as [v|] eqn:Ef; [|discriminate]. cbn in E1. apply aset_inv in E1 as [H1 H2]. split.
    + intros i Hi. apply in_app_iff in Hi. destruct (Z.eq_dec i a) as [->|Hne]; [congruence|].
      destruct Hi as [Hi|[Hi|[]]]; [|congruence]. rewrite G by auto. f_equal. symmetry. apply H2. intros X. apply Hne. now apply Hinj.
    + intros idx Hx. rewrite H2 by auto. now apply O.
Qed.

Lemma inb_removelast sh idx (k : Z) : inb sh (idx ++ [k]) = true -> inb (removelast sh) idx = true.
Proof.
  revert sh. induction idx as [|i idx IH]; intros sh H.
  - destruct sh as [|n [|m sh]]; cbn in *; auto; try discriminate. now rewrite andb_false_r in H.
  - destruct sh as [|n sh]; [discriminate|]. cbn [app inb] in H. apply andb_true_iff in H as [H1 H2].
    destruct sh as [|m sh]; [destruct idx; discriminate|]. change (removelast (n :: m :: sh)) with (n :: removelast (m :: sh)).
    cbn [inb]. rewrite H1. now apply IH.
Qed.
Lemma aget_last (C : arr T) idx k v : aget C (idx ++ [k]) = Ok v -> aget (last_comp C k) idx = Ok v.
Proof.
  unfold aget. destruct (inb _ _) eqn:E; [|destruct (_ =? _); discriminate]. intros [= <-].
  cbn. now rewrite (inb_removelast _ _ _ E).
Qed.
Lemma trex_mono (c c' : list Z -> res T) : (forall idx v, c idx = Ok v -> c' idx = Ok v) ->
  forall l inds v, trex l c inds = Ok v -> trex l c' inds = Ok v.
Proof.
  intros H. induction l as [|h l IH]; intros inds v; cbn [trex]; auto.
  destruct (mapM _ _) as [es|] eqn:E; [|discriminate]. cbn [bind]. intros [= <-].
  assert (E2 : mapM (fun ih : Z * T => v <- trex l c' (inds ++ [fst ih]);; Ok (n_mul (snd ih) v)) (enum_from 0 h) = Ok es).
  { apply mapM_ok in E. apply mapM_ok. induction E as [|[i x] w ? ? Hw _ IHE]; constructor; auto. cbn [fst snd] in *.
    destruct (trex l c (inds ++ [i])) as [u|] eqn:Eu; [|discriminate]. rewrite (IH _ _ Eu). exact Hw. }
  rewrite E2. reflexivity.
Qed.
Lemma n_sum_last C cells k v : n_sum C cells [k] = Ok v -> n_sum (last_comp C k) cells [] = Ok v.
Proof. unfold n_sum. apply trex_mono. intros idx v'. rewrite app_nil_r. apply aget_last. Qed.

Lemma mapM_lget_inv {A B} (f : B -> res A) l bs : mapM f l = Ok bs -> mapM (lget bs) (zrange (zlen l)) = Ok bs.
Proof.
  intros E. pose proof (mapM_length _ _ _ E) as L. assert (Lz : zlen l = zlen bs) by (unfold zlen; congruence). rewrite Lz. clear.
  assert (G : forall pre, mapM (lget (pre ++ bs)) (map Z.of_nat (seq (List.length pre) (List.length bs))) = Ok bs).
  { induction bs as [|b bs IH]; intros pre; auto. cbn [List.length seq map mapM].
    rewrite (lget_ok _ _ b) by (unfold zlen; rewrite app_length; cbn; lia). cbn [bind]. rewrite Nat2Z.id, nth_middle.
    specialize (IH (pre ++ [b])). rewrite app_length, <- app_assoc in IH. cbn [List.length app] in IH. rewrite Nat.add_1_r in IH. now rewrite IH. }
  unfold zrange, zlen. rewrite Nat2Z.id. exact (G []).
Qed.
Lemma zlen_zrange (d : nat) : zlen (zrange (Z.of_nat d)) = Z.of_nat d.
Proof. unfold zrange, zlen. now rewrite map_length, seq_length, Nat2Z.id. Qed.

Lemma row_ok (points : arr T) d n xs : mapM (fun k => aget points [n; k]) (zrange d) = Ok xs -> xs = row_of d points n.
Proof.
  unfold row_of. generalize (zrange d). intros l. revert xs. induction l as [|i l IH]; intros xs; cbn [mapM map].
  - now intros [= <-].
  - unfold aget at 1. destruct (inb _ _); [|destruct (_ =? _); discriminate]. cbn [bind]. destruct (mapM _ l) as [ys|]; [|discriminate].
    cbn. intros [= <-]. f_equal. now apply IH.
Qed.

(** ** The models *)
Section Models.
Context (d : nat) (a b : list T) (orders : list Z) (coefs points : arr T).
Notation scalar := (num_eval_spline (Z.of_nat d) a b orders).

Lemma scalar_at C xs dims v (f : Z -> res T) : mapM (g_dim a b orders) (zrange (Z.of_nat d)) = Ok dims -> mapM f (zrange (Z.of_nat d)) = Ok xs ->
  n_sum C (map2 g_cell xs dims) [] = Ok v -> scalar C xs = Ok v.
Proof. intros E1 E2 E. unfold num_eval_spline. rewrite E1. cbn [bind]. pose proof (mapM_lget_inv _ _ _ E2) as E3. rewrite zlen_zrange in E3. rewrite E3. exact E. Qed.

Lemma vec_scalar out o N p : ashape points = [N; p] -> num_vec_eval_spline (Z.of_nat d) a b orders coefs points out = Ok o ->
  forall n, 0 <= n < N -> scalar coefs (row_of (Z.of_nat d) points n) = Ok (acell o [n]).
Proof.
  intros Hp E n Hn. unfold num_vec_eval_spline, adim in E. rewrite Hp in E. cbn [lget nth_error Z.to_nat Z.ltb Z.compare bind] in E.
  set (f := fun n => xs <- mapM (fun k => aget points [n; k]) (zrange (Z.of_nat d)) ;; dims <- mapM (g_dim a b orders) (zrange (Z.of_nat d)) ;; n_sum coefs (map2 g_cell xs dims) []).
  destruct (foldM_cells f (fun n => [n]) (zrange N) out o) as [G _]; [congruence| |].
  - rewrite <- E. apply foldM_ext. intros s i _. unfold f. rewrite !bind_assoc. apply bind_ext. intros xs _. now rewrite !bind_assoc.
  - specialize (G n (zrange_mono _ _ Hn)). unfold f in G.
    destruct (mapM (fun k => aget points [n; k]) _) as [xs|] eqn:E1; [|discriminate]. destruct (mapM (g_dim a b orders) _) as [dims|] eqn:E2; [|discriminate]. cbn [bind] in G.
    rewrite <- (row_ok _ _ _ _ E1). eapply scalar_at; eauto.
Qed.

Lemma splines_scalar point vals o ns : adim coefs (Z.of_nat d) = Ok ns -> num_eval_splines (Z.of_nat d) a b orders coefs point vals = Ok o ->
  forall k, 0 <= k < ns -> scalar (last_comp coefs k) point = Ok (acell o [k]).
Proof.
  intros Hns E k Hk. unfold num_eval_splines in E. rewrite Hns in E. cbn [bind] in E. unfold num_eval_spline.
  destruct (mapM (g_dim a b orders) _) as [dims|]; [|discriminate]. cbn [bind] in *. destruct (mapM (lget point) _) as [xs|]; [|discriminate]. cbn [bind] in *.
  destruct (foldM_cells (fun k => n_sum coefs (map2 g_cell xs dims) [k]) (fun k => [k]) (zrange ns) vals o) as [G _]; [congruence|exact E|].
  apply n_sum_last. apply G. now apply zrange_In.
Qed.

Lemma vec_splines_scalar vals o ns N p : adim coefs (Z.of_nat d) = Ok ns -> ashape points = [N; p] ->
  num_vec_eval_splines (Z.of_nat d) a b orders coefs points vals = Ok o ->
  forall n k, 0 <= n < N -> 0 <= k < ns -> scalar (last_comp coefs k) (row_of (Z.of_nat d) points n) = Ok (acell o [n; k]).
Proof.
  intros Hns Hp E n k Hn Hk. unfold num_vec_eval_splines, adim in E. fold (adim coefs (Z.of_nat d)) in E. rewrite Hns, Hp in E. cbn [lget nth_error Z.to_nat Z.ltb Z.compare bind] in E.
  destruct (mapM (g_dim a b orders) _) as [dims|] eqn:Ed; [|discriminate]. cbn [bind] in *.
  match type of E with foldM ?f _ _ = _ => set (F := f) in E end.
  assert (G : forall n, In n (zrange N) -> forall k, 0 <= k < ns -> scalar (last_comp coefs k) (row_of (Z.of_nat d) points n) = Ok (acell o [n; k])).
  { apply (foldM_inv F (fun l o => forall n, In n l -> forall k, 0 <= k < ns -> scalar (last_comp coefs k) (row_of (Z.of_nat d) points n) = Ok (acell o [n; k])) (zrange N) [] vals o); auto.
    - intros ? [].
    - intros pre s n1 s' H1 E1 n2 Hn2 k2 Hk2. unfold F in E1. destruct (mapM (fun k => aget points [n1; k]) _) as [xs|] eqn:Ex; [|discriminate]. cbn [bind] in E1.
      destruct (foldM_cells (fun k => n_sum coefs (map2 g_cell xs dims) [k]) (fun k => [n1; k]) (zrange ns) s s') as [G O]; [congruence|exact E1|].
      destruct (Z.eq_dec n2 n1) as [->|Hne].
      + rewrite <- (row_ok _ _ _ _ Ex). eapply scalar_at; eauto. apply n_sum_last. apply G. now apply zrange_In.
      + apply in_app_iff in Hn2 as [Hn2|[Hn2|[]]]; [|congruence]. rewrite (H1 n2 Hn2 k2 Hk2). f_equal. symmetry. apply O. congruence. }
  apply G; auto. now apply zrange_In.
Qed.

(** The values of the gradient function are those of the function without gradient. *)
Lemma G_values vals dvals V D : splines_G (Z.of_nat d) a b orders coefs points vals dvals = Ok (V, D) ->
  num_vec_eval_splines (Z.of_nat d) a b orders coefs points vals = Ok V.
Proof.
  unfold splines_G, num_vec_eval_splines. destruct (adim coefs _) as [ns|]; [|discriminate]. destruct (adim points 0) as [N|]; [|discriminate]. cbn [bind].
  destruct (mapM (g_dim a b orders) _) as [dims|] eqn:Ed; [|discriminate]. cbn [bind]. 
  assert (K : forall n cells l s s', foldM (g_store coefs (Z.of_nat d) n cells) l s = Ok s' ->
    foldM (fun vals k => v <- n_sum coefs cells [k];; aset vals [n; k] v) l (fst s) = Ok (fst s')).
  { intros n cells. induction l as [|k l IH]; intros s s' E; cbn in *.
    - now injection E as <-.
    - unfold g_store at 1 in E. unfold g_sum at 1 in E. fold (n_sum coefs cells [k]) in E. destruct (n_sum coefs cells [k]) as [v|]; [|discriminate]. cbn [bind] in *.
      destruct (aset (fst s) [n; k] v) as [o|]; [|discriminate]. cbn [bind] in *. destruct (foldM _ (zrange _) (snd s)) as [dv|]; [|discriminate]. cbn [bind] in E.
      apply (IH (o, dv)). exact E. }
  assert (K2 : forall l s s', foldM (g_point dims coefs points ns (Z.of_nat d)) l s = Ok s' ->
    foldM (fun vals n => xs <- mapM (fun k => aget points [n; k]) (zrange (Z.of_nat d));;
      foldM (fun vals k => v <- n_sum coefs (map2 g_cell xs dims) [k];; aset vals [n; k] v) (zrange ns) vals) l (fst s) = Ok (fst s')).
  { induction l as [|n l IH]; intros s s' E; cbn in *.
    - now injection E as <-.
    - unfold g_point at 1 in E. destruct (mapM (fun k => aget points [n; k]) _) as [xs|]; [|discriminate]. cbn [bind] in *.
      destruct (foldM (g_store _ _ _ _) _ s) as [s1|] eqn:E1; [|discriminate]. rewrite (K _ _ _ _ _ E1). cbn [bind] in *. now apply IH. }
  intros E. exact (K2 _ _ _ E).
Qed.
End Models.

(** ** The text *)
Section Text.
Hypothesis H6 : n_is0 (n_ofZ (T := T) 6) = false.
Context (d : nat) (a b : list T) (orders : list Z).
Hypothesis Hd : (1 <= d <= 4)%nat.
Notation heapS C pt := ([OF (vecT a); OF (vecT b); OI (vecZ orders); OF C; OF (vecT pt)]).

Lemma scalar_text fuel C pt v : List.length (ashape C) = d -> num_eval_spline (Z.of_nat d) a b orders C pt = Ok v ->
  run_text eval_cubic_numba_py (S fuel) (dim_name "eval_cubic_spline_" d) (arrays 5) [] (heapS C pt) = Ok (PFlt v, heapS C pt).
Proof. intros HC E. pose proof (text_spline H6 fuel d a b orders C pt Hd HC) as X. cbv zeta in X. rewrite E in X. exact X. Qed.

Lemma len_removelast {A} (l : list A) n : List.length l = (n + 1)%nat -> List.length (removelast l) = n.
Proof.
  intros H. assert (Hl : l <> []) by (intros ->; cbn in H; lia).
  destruct (exists_last Hl) as (m & x & ->). rewrite app_length in H. cbn in H. rewrite removelast_last. lia.
Qed.
Lemma adim_of (C : arr T) : List.length (ashape C) = (d + 1)%nat -> adim C (Z.of_nat d) = Ok (last (ashape C) 0).
Proof.
  intros H. unfold adim. rewrite (lget_ok _ _ 0) by (unfold zlen; lia). f_equal. rewrite Nat2Z.id.
  rewrite (app_removelast_last 0) at 1 by (intros X; rewrite X in H; cbn in H; lia).
  rewrite app_nth2; rewrite len_removelast with (n := d) by auto; [|lia]. now rewrite Nat.sub_diag.
Qed.

Theorem agree_vec fuel coefs points out N p r h' :
  List.length (ashape coefs) = d -> ashape points = [N; p] -> List.length (ashape out) = 1%nat ->
  run_text eval_cubic_numba_py (S fuel) (dim_name "vec_eval_cubic_spline_" d) (arrays 6) []
    [OF (vecT a); OF (vecT b); OI (vecZ orders); OF coefs; OF points; OF out] = Ok (r, h') ->
  exists o, r = PNone /\ h' = [OF (vecT a); OF (vecT b); OI (vecZ orders); OF coefs; OF points; OF o] /\
    forall n, 0 <= n < N -> let pt := row_of (Z.of_nat d) points n in
      run_text eval_cubic_numba_py (S fuel) (dim_name "eval_cubic_spline_" d) (arrays 5) [] (heapS coefs pt) = Ok (PFlt (acell o [n]), heapS coefs pt).
Proof.
  intros Rc Hp Ro E. rewrite (text_vec_spline H6) in E by (auto; rewrite Hp; auto).
  destruct (num_vec_eval_spline _ _ _ _ _ _ _) as [o|] eqn:Eo; [|discriminate]. cbn [bind] in E. injection E as <- <-.
  exists o. split; [reflexivity|]. split; [reflexivity|]. intros n Hn pt. apply scalar_text; auto. eapply vec_scalar; eauto.
Qed.

Theorem agree_splines fuel coefs pt vals r h' :
  List.length (ashape coefs) = (d + 1)%nat -> List.length (ashape vals) = 1%nat ->
  run_text eval_cubic_numba_py (S fuel) (dim_name "eval_cubic_splines_" d) (arrays 6) []
    [OF (vecT a); OF (vecT b); OI (vecZ orders); OF coefs; OF (vecT pt); OF vals] = Ok (r, h') ->
  exists o, r = PNone /\ h' = [OF (vecT a); OF (vecT b); OI (vecZ orders); OF coefs; OF (vecT pt); OF o] /\
    forall k, 0 <= k < last (ashape coefs) 0 ->
      run_text eval_cubic_numba_py (S fuel) (dim_name "eval_cubic_spline_" d) (arrays 5) [] (heapS (last_comp coefs k) pt)
      = Ok (PFlt (acell o [k]), heapS (last_comp coefs k) pt).
Proof.
  intros Rc Ro E. rewrite (text_splines H6) in E by auto.
  destruct (num_eval_splines _ _ _ _ _ _ _) as [o|] eqn:Eo; [|discriminate]. cbn [bind] in E. injection E as <- <-.
  exists o. split; [reflexivity|]. split; [reflexivity|]. intros k Hk. apply scalar_text; [cbn; now apply len_removelast|]. eapply splines_scalar; eauto using adim_of.
Qed.

Theorem agree_vec_splines fuel coefs points vals N p r h' :
  List.length (ashape coefs) = (d + 1)%nat -> ashape points = [N; p] -> List.length (ashape vals) = 2%nat ->
  run_text eval_cubic_numba_py (S fuel) (dim_name "vec_eval_cubic_splines_" d) (arrays 6) []
    [OF (vecT a); OF (vecT b); OI (vecZ orders); OF coefs; OF points; OF vals] = Ok (r, h') ->
  exists o, r = PNone /\ h' = [OF (vecT a); OF (vecT b); OI (vecZ orders); OF coefs; OF points; OF o] /\
    forall n k, 0 <= n < N -> 0 <= k < last (ashape coefs) 0 -> let pt := row_of (Z.of_nat d) points n in
      run_text eval_cubic_numba_py (S fuel) (dim_name "eval_cubic_spline_" d) (arrays 5) [] (heapS (last_comp coefs k) pt)
      = Ok (PFlt (acell o [n; k]), heapS (last_comp coefs k) pt).
Proof.
  intros Rc Hp Ro E. rewrite (text_vec_splines H6) in E by (auto; rewrite Hp; auto).
  destruct (num_vec_eval_splines _ _ _ _ _ _ _) as [o|] eqn:Eo; [|discriminate]. cbn [bind] in E. injection E as <- <-.
  exists o. split; [reflexivity|]. split; [reflexivity|]. intros n k Hn Hk pt. apply scalar_text; [cbn; now apply len_removelast|]. eapply vec_splines_scalar; eauto using adim_of.
Qed.

Theorem agree_G fuel coefs points vals dvals N p r h' :
  List.length (ashape coefs) = (d + 1)%nat -> ashape points = [N; p] -> List.length (ashape vals) = 2%nat -> List.length (ashape dvals) = 3%nat ->
  run_text eval_cubic_numba_py (S fuel) (dim_name "vec_eval_cubic_splines_G_" d) (arrays 7) []
    [OF (vecT a); OF (vecT b); OI (vecZ orders); OF coefs; OF points; OF vals; OF dvals] = Ok (r, h') ->
  exists V D, r = PNone /\ h' = [OF (vecT a); OF (vecT b); OI (vecZ orders); OF coefs; OF points; OF V; OF D] /\
    run_text eval_cubic_numba_py (S fuel) (dim_name "vec_eval_cubic_splines_" d) (arrays 6) []
      [OF (vecT a); OF (vecT b); OI (vecZ orders); OF coefs; OF points; OF vals]
    = Ok (PNone, [OF (vecT a); OF (vecT b); OI (vecZ orders); OF coefs; OF points; OF V]).
Proof.
  intros Rc Hp Ro Rd E. assert (Rp : List.length (ashape points) = 2%nat) by (rewrite Hp; auto).
  pose proof (text_splines_G H6 fuel d a b orders coefs points vals dvals Hd Rc Rp Ro Rd) as X. cbv beta zeta in X. cbn [fst snd] in X. rewrite X in E. clear X.
  destruct (splines_G _ _ _ _ _ _ _ _) as [[V D]|] eqn:Eo; [|discriminate]. cbn [bind fst snd] in E. injection E as <- <-.
  exists V, D. split; [reflexivity|]. split; [reflexivity|]. rewrite (text_vec_splines H6) by (auto; rewrite Hp; auto). rewrite (G_values _ _ _ _ _ _ _ _ _ _ Eo). reflexivity.
Qed.
End Text.
End Agree.
