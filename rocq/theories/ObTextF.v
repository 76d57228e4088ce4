(** The same for CubicSplines. *)
From Coq Require Import ZArith List Bool String Lia.
From Verif Require Import Base SplineModel PrefilterModel ArrayModel CartesianModel GradModel ObjectModel SpecObject PySyntax ObSem SpecObText ObText ObTextA ObTextB ObTextC ObTextD ObTextE.
Import ListNotations.
Open Scope Z_scope.
Open Scope string_scope.
Section Any.
Context {T : Type} {NT : Num T}.
Definition mrel (k : nat) (m : memory T) (s : cubics T) (w : state T) : Prop :=
  (k <= h_next (fst w))%nat /\ (forall i, (i < k)%nat -> h_mem (fst w) i = m i) /\ dims (mcs_a s) (mcs_b s) (mcs_orders s) /\
  exists c tl, snd w = matt (mcs_a s) (mcs_b s) (mcs_orders s) c tl /\ mtail_ok tl /\
    match mcs_coeffs s with None => c = ONone | Some x => exists l, c = ORef l [] /\ (k <= l < h_next (fst w))%nat /\ nd_arr (h_mem (fst w) l) = x end.
Lemma mrel_grows k (m : memory T) s h h' att : mrel k m s (h, att) -> grows h h' -> mrel k m s (h', att).
Proof.
  intros (K & M & D & c & tl & E & Tl & Hc) [G1 G2]. cbn [fst snd] in *.
  split; [cbn; lia|]. split; [intros i Hi; cbn; rewrite G2 by lia; apply M; exact Hi|]. split; [exact D|].
  exists c, tl. split; [exact E|]. split; [exact Tl|]. cbn [fst snd].
  destruct (mcs_coeffs s); [|exact Hc]. destruct Hc as (l & -> & L & X). exists l. split; [reflexivity|]. split; [lia|]. rewrite G2 by lia. exact X.
Qed.
Lemma mrel_write k (m : memory T) s w id idx x : mrel k m s w -> (id < k)%nat ->
  mrel k (written m id idx x) s (mkHeap (h_next (fst w)) (written (h_mem (fst w)) id idx x), snd w).
Proof.
  destruct w as [h att]. intros (K & M & D & c & tl & E & Tl & Hc) L. cbn [fst snd] in *.
  split; [exact K|]. split; [intros i Hi; cbn; apply (written_mem k); assumption|]. split; [exact D|].
  exists c, tl. split; [exact E|]. split; [exact Tl|]. cbn [fst snd].
  destruct (mcs_coeffs s); [|exact Hc]. destruct Hc as (l & -> & Ll & X). exists l. split; [reflexivity|]. split; [cbn; lia|]. cbn. rewrite written_other by lia. exact X.
Qed.
Lemma mrel_new k (m : memory T) a b n h : dims a b n -> (k <= h_next h)%nat -> (forall i, (i < k)%nat -> h_mem h i = m i) ->
  mrel k m (mkMCS a b n None None) (h, matt a b n ONone []).
Proof. intros D K M. split; [exact K|]. split; [exact M|]. split; [exact D|]. exists ONone, []. cbn. repeat split. left. reflexivity. Qed.
Lemma mrel_coef_ref k (m : memory T) s h c tl : mrel k m s (h, matt (mcs_a s) (mcs_b s) (mcs_orders s) c tl) ->
  coef_ref c /\ match mcs_coeffs s with None => c = ONone | Some x => exists l, c = ORef l [] /\ (k <= l < h_next h)%nat /\ nd_arr (h_mem h l) = x end.
Proof.
  intros (K & M & D & c' & tl' & E & Tl & Hc). cbn [fst snd] in *. assert (c' = c) by (unfold matt in E; cbn in E; congruence). subst c'.
  split; [|exact Hc]. destruct (mcs_coeffs s); [right|left; exact Hc]. destruct Hc as (l & -> & _). eauto.
Qed.
Lemma loops_S (W : ops T (heap T)) P c m n E w x z body ret next : loops W P c (S m) n E w x z body ret next =
  (fix go (l : list Z) E w := match l with [] => next E w | i :: l => ex W P (loops W P c m) c n (set_var E x (OI i)) w body ret (fun E w => go l E w) end) (zrange z) E w.
Proof. reflexivity. Qed.
Lemma mcs_set_rel junk nan k (m : memory T) s h c tl id fu : fu = 86%nat \/ fu = 74%nat -> mrel k m s (h, matt (mcs_a s) (mcs_b s) (mcs_orders s) c tl) -> mtail_ok tl -> (id < k)%nat ->
  let r := mcs_set_result fu (loops (np_ops junk) PC cm 3) h (mcs_a s) (mcs_b s) (mcs_orders s) c tl id in
  mrel k m (fst (mcs_step nan m s id)) (fst r) /\ same_outcome (snd r) (snd (mcs_step nan m s id)).
Proof.
  intros Hf R Tl L. unfold mcs_set_result, mcs_step, mcs_set, adim, andim, last_dim.
  pose proof R as (K & M & D & _). cbn [fst snd] in K, M.
  rewrite (M id L). set (v := nd_arr (m id)).
  change (zlen (ashape v) - 1)%Z with (zlen (ashape v) + -1)%Z.
  assert (R1 : mrel k m s (h_alloc h true v, matt (mcs_a s) (mcs_b s) (mcs_orders s) c tl)) by (apply (mrel_grows _ _ _ h); [exact R|apply grows_alloc]).
  destruct (lget _ _) as [ns|e]; cbn [bind]; [|cbn; split; [exact R1|eauto]].
  destruct (areshape v _) as [x|e] eqn:Ex; cbn [bind]; [|cbn; split; [exact R1|eauto]].
  destruct (all_finite x); cbn [negb bind]; [|cbn; split; [exact R1|eauto]].
  unfold filter_mcoeffs, adim, andim. change (zlen (ashape x) - 1)%Z with (zlen (ashape x) + -1)%Z.
  destruct (lget (ashape x) _) as [q|e]; cbn [bind]; [|cbn; split; [exact R1|eauto]].
  set (co := azeros _). set (h2 := h_alloc (h_alloc h true v) true co).
  set (sh := (mcs_orders s ++ [ns])%list) in *.
  rewrite (loops_S _ _ _ 2).
  destruct (loop_ok junk fu nan 2 (mcs_a s) (mcs_b s) (mcs_orders s) (h_next h) sh q (S (h_next h)) (matt (mcs_a s) (mcs_b s) (mcs_orders s) c tl)
              (ret_loop (h_next h) sh) (after_loop (h_next h) sh) (zrange q) Hf D
              (loop_env (mcs_a s) (mcs_b s) (mcs_orders s) (h_next h) sh q (S (h_next h))) h2 x co) as (h' & Fr & P).
  - left. reflexivity.
  - cbn. lia.
  - cbn. lia.
  - lia.
  - rewrite h_read1. cbn. rewrite put_other by (cbn; lia). cbn. rewrite put_same. exact Ex.
  - cbn. rewrite put_same. reflexivity.
  - assert (Gr : grows h h').
    { destruct Fr as [F1 F2]. cbn in F1. split; [lia|]. intros i Hi. rewrite F2 by (cbn; lia). cbn. rewrite put_other by (cbn; lia). cbn. apply put_other. lia. }
    cbn zeta in P. unfold step in P.
    match type of P with match ?X with _ => _ end => match goal with |- context [foldM ?g ?l ?a] => change X with (foldM g l a) in P; destruct (foldM g l a) as [z|e] end end; cbn [bind].
    + destruct P as (E' & HE & Pr & Pz). cbv beta in Pr |- *. rewrite Pr.
      assert (Lk : look E' "coefs" = Some (ORef (S (h_next h)) [])) by (destruct HE as [->|[j ->]]; reflexivity).
      unfold after_loop. rewrite Lk. cbn [fst snd okret].
      split; [|reflexivity].
      destruct Gr as [G1 G2].
      split; [cbn; lia|]. split; [intros i Hi; cbn; rewrite G2 by lia; auto|]. split; [exact D|].
      exists (ORef (S (h_next h)) []), [("__mvalues__", ORef (h_next h) [sh])]. cbn [fst snd mcs_a mcs_b mcs_orders mcs_coeffs]. split.
      * destruct Tl as [->|[u ->]]; reflexivity.
      * split; [right; eauto|]. exists (S (h_next h)). split; [reflexivity|]. destruct Fr as [F1 _]. cbn in F1. split; [lia|exact Pz].
    + destruct P as [e' Pr]. cbv beta in Pr |- *. rewrite Pr. cbn [fst snd]. split; [|cbn; eauto]. apply (mrel_grows _ _ _ h); assumption.
Qed.
Lemma mcs_set_ok junk nan k (m : memory T) s w id : mrel k m s w -> (id < k)%nat ->
  let r := run junk cubic_program "CubicSplines" "set_values" [ORef id []] [] w in
  mrel k m (fst (mcs_step nan m s id)) (fst r) /\ same_outcome (snd r) (snd (mcs_step nan m s id)).
Proof.
  destruct w as [h att]. intros R L. pose proof R as (K & M & D & c & tl & E & Tl & Hc). cbn [fst snd] in E. subst att.
  rewrite run_mcs, mcs_set_tree by assumption. apply mcs_set_rel; auto.
Qed.
Lemma mcs_make_ok junk nan k a b n v (h : heap T) : dims a b n -> (k <= h_next h)%nat -> (match v with Some l => (l < k)%nat | None => True end) ->
  let r := make junk cubic_program "CubicSplines" a b n v h in
  match mcs_new nan a b n (option_map (fun l => nd_arr (h_mem h l)) v) with
  | Ok s => snd r = Ok ONone /\ mrel k (h_mem h) s (fst r)
  | Err _ => exists e, snd r = Err e
  end.
Proof.
  intros D K L. unfold make. rewrite run_mcs, mcs_new_tree by exact D. unfold mcs_new.
  assert (Zb : zlen b = zlen a) by (unfold zlen; destruct D as (_ & -> & _); reflexivity).
  assert (Zn : zlen n = zlen a) by (unfold zlen; destruct D as (_ & _ & ->); reflexivity).
  rewrite Zb, Zn, Z.eqb_refl. cbn [negb orb].
  pose proof (mrel_new k (h_mem h) a b n h D K (fun i _ => eq_refl)) as R0.
  destruct v as [l|]; cbn [option_map].
  - pose proof (mcs_set_rel junk nan k (h_mem h) (mkMCS a b n None None) h ONone [] l 74 (or_intror eq_refl) R0 (or_introl eq_refl) L) as [R1 R2]. cbn [mcs_a mcs_b mcs_orders] in *. unfold mcs_step in *.
    destruct (mcs_set _ _ _) as [s r]. cbn [fst snd] in *. destruct r; cbn [bind same_outcome] in *; auto.
  - cbn. auto.
Qed.
Lemma mcs_rows_ok junk k (m : memory T) s h c tl N D f : mrel k m s (h, matt (mcs_a s) (mcs_b s) (mcs_orders s) c tl) ->
  let r := mcs_rows_result junk h (mcs_a s) (mcs_b s) (mcs_orders s) c tl N D f false in
  let x := mcs_interpolate junk s (P2 (mkArr [N; D] f)) false in
  snd (fst r) = matt (mcs_a s) (mcs_b s) (mcs_orders s) c tl /\ grows h (fst (fst r)) /\
  match x with
  | Ok (VArr a, None) => exists l, snd r = Ok (ORef l []) /\ nd_arr (h_mem (fst (fst r)) l) = a
  | Ok _ => False
  | Err _ => exists e, snd r = Err e
  end.
Proof.
  intros R. destruct (mrel_coef_ref _ _ _ _ _ _ R) as [_ Hc]. pose proof R as (K & M & Dd & _). cbn [fst snd] in K, M.
  unfold mcs_rows_result, mcs_interpolate, last_dim, adim, andim. cbn [ashape].
  change (lget [N; D] 1) with (Ok D : res Z). change (lget [N; D] 0) with (Ok N : res Z). cbn [bind].
  destruct (D =? zlen (mcs_a s))%Z; cbn [negb]; [|cbn; split; [reflexivity|]; split; [apply grows_refl|eauto]].
  destruct (all_finite _); cbn [negb]; [|cbn; split; [reflexivity|]; split; [apply grows_refl|eauto]].
  destruct (mcs_coeffs s) as [cx|]; [|subst c; cbn; split; [reflexivity|]; split; [apply grows_refl|eauto]].
  destruct Hc as (l & -> & Ll & X). rewrite X. change (zlen (ashape cx) - 1)%Z with (zlen (ashape cx) + -1)%Z.
  destruct (lget (ashape cx) _) as [ns|e]; cbn [bind]; [|cbn; split; [reflexivity|]; split; [apply grows_refl|eauto]].
  rewrite (obj_grid_is _ _ _ Dd). cbn [bind].
  replace (nd_arr (h_mem (h_alloc h true (mkArr [N; ns] junk)) l)) with cx by (cbn; rewrite put_other by lia; congruence).
  destruct (eval_cubic _ cx _ _ None) as [[r1 [o|]]|e]; cbn [bind fst snd].
  - split; [reflexivity|]. split; [apply grows_store; [apply grows_alloc|lia]|]. exists (h_next h). split; [reflexivity|]. cbn. rewrite put_same. reflexivity.
  - split; [reflexivity|]. split; [apply grows_alloc|eauto].
  - split; [reflexivity|]. split; [apply grows_alloc|eauto].
Qed.
Lemma seen_ref (w : state T) l a : nd_arr (h_mem (fst w) l) = a -> seen (w, Ok (ORef l [])) = Ok (VArr a).
Proof. intros E. unfold seen. cbn [fst snd]. rewrite h_read0. cbn. rewrite E. reflexivity. Qed.
Lemma mcs_call_ok junk k (m : memory T) s w p : mrel k m s w -> rows p ->
  let r := run junk cubic_program "CubicSplines" "__call__" [pval p] [] w in
  same (seen r) (mcs_call junk s p) /\ mrel k m s (fst r).
Proof.
  destruct w as [h att]. intros R Hp. pose proof R as (K & M & D & c & tl & E & Tl & _). cbn [fst snd] in E. subst att.
  destruct (mrel_coef_ref _ _ _ _ _ _ R) as [Cr _].
  destruct p as [x|q]; cbn [pval].
  - rewrite mcs_call_point_tree by assumption. unfold mcs_call.
    destruct (mcs_rows_ok junk k m s h c tl 1 (zlen x) (acell (atleast_2d x)) R) as (A1 & G1 & F1).
    change (mkArr [1; zlen x] (acell (atleast_2d x))) with (atleast_2d x) in *.
    set (r := mcs_rows_result _ _ _ _ _ _ _ _ _ _ _) in *.
    destruct (mcs_interpolate junk s (P2 (atleast_2d x)) false) as [[[| | |a] [|]]|e]; try contradiction.
    + destruct F1 as (l & El & Xl). destruct r as [[h' att'] rr]. cbn [fst snd] in *. subst rr att'. cbn [ravel_of bind fst ravel_val]. rewrite Xl. cbn zeta.
      destruct (areshape a _) as [v|e]; cbn [bind].
      * split; [rewrite seen_ret; reflexivity|]. cbn [ret_py fst snd]. apply (mrel_grows _ _ _ h); [exact R|]. eapply grows_trans; [exact G1|apply grows_alloc].
      * cbn. split; [exact I|]. apply (mrel_grows _ _ _ h); assumption.
    + destruct F1 as [e' E']. destruct r as [[h' att'] rr]; cbn [fst snd] in *. subst rr att'. cbn. split; [exact I|]. apply (mrel_grows _ _ _ h); assumption.
  - destruct Hp as (N & Dm & Hq). destruct q as [sh f]. cbn in Hq. subst sh. rewrite mcs_call_rows_tree by assumption. unfold mcs_call.
    destruct (mcs_rows_ok junk k m s h c tl N Dm f R) as (A1 & G1 & F1).
    set (r := mcs_rows_result _ _ _ _ _ _ _ _ _ _ _) in *.
    destruct (mcs_interpolate junk s (P2 (mkArr [N; Dm] f)) false) as [[[| | |a] [|]]|e]; try contradiction.
    + destruct F1 as (l & El & Xl). destruct r as [[h' att'] rr]. cbn [fst snd] in *. subst rr att'. cbn [bind fst].
      split; [rewrite (seen_ref _ _ a) by exact Xl; reflexivity|]. apply (mrel_grows _ _ _ h); assumption.
    + destruct F1 as [e' E']. destruct r as [[h' att'] rr]; cbn [fst snd] in *. subst rr att'. cbn. split; [exact I|]. apply (mrel_grows _ _ _ h); assumption.
Qed.
(** [interpolate(points)], [interpolate(points, diff=True)] *)
Lemma mcs_interp_ok junk k (m : memory T) s w p : mrel k m s w -> rows p ->
  let r := run junk cubic_program "CubicSplines" "interpolate" [pval p; OB false] [] w in
  same (seen r) (x <- mcs_interpolate junk s p false ;; Ok (fst x)) /\ mrel k m s (fst r).
Proof.
  destruct w as [h att]. intros R Hp. pose proof R as (K & M & D & c & tl & E & Tl & _). cbn [fst snd] in E. subst att.
  destruct (mrel_coef_ref _ _ _ _ _ _ R) as [Cr _].
  destruct p as [x|q]; cbn [pval].
  - rewrite mcs_point_tree by assumption. cbn. split; [exact I|exact R].
  - destruct Hp as (N & Dm & Hq). destruct q as [sh f]. cbn in Hq. subst sh. rewrite mcs_rows_tree by assumption.
    destruct (mcs_rows_ok junk k m s h c tl N Dm f R) as (A1 & G1 & F1).
    set (r := mcs_rows_result _ _ _ _ _ _ _ _ _ _ _) in *.
    destruct (mcs_interpolate junk s (P2 (mkArr [N; Dm] f)) false) as [[[| | |a] [|]]|e]; try contradiction.
    + destruct F1 as (l & El & Xl). destruct r as [[h' att'] rr]. cbn [fst snd] in *. subst rr att'. cbn [bind fst].
      split; [rewrite (seen_ref _ _ a) by exact Xl; reflexivity|]. apply (mrel_grows _ _ _ h); assumption.
    + destruct F1 as [e' E']. destruct r as [[h' att'] rr]; cbn [fst snd] in *. subst rr att'. cbn. split; [exact I|]. apply (mrel_grows _ _ _ h); assumption.
Qed.
Lemma mcs_diff_ok junk k (m : memory T) s w p : mrel k m s w -> rows p ->
  let r := run junk cubic_program "CubicSplines" "interpolate" [pval p; OB true] [] w in
  same (seen2 r) (mcs_interpolate junk s p true) /\ mrel k m s (fst r).
Proof.
  destruct w as [h att]. intros R Hp. pose proof R as (K & M & Dd & c & tl & E & Tl & _). cbn [fst snd] in E. subst att.
  destruct (mrel_coef_ref _ _ _ _ _ _ R) as [Cr Hc].
  destruct p as [x|q]; cbn [pval].
  - rewrite mcs_point_tree by assumption. cbn. split; [exact I|exact R].
  - destruct Hp as (N & D & Hq). destruct q as [sh f]. cbn in Hq. subst sh. rewrite mcs_rows_tree by assumption.
    unfold mcs_rows_result, mcs_interpolate, vec_eval_cubic_splines_G, last_dim, adim, andim. cbn [ashape].
    change (lget [N; D] 1) with (Ok D : res Z). change (lget [N; D] 0) with (Ok N : res Z). cbn [bind].
    destruct (D =? zlen (mcs_a s))%Z eqn:ED; cbn [negb]; [|cbn; split; [exact I|exact R]].
    destruct (all_finite _); cbn [negb]; [|cbn; split; [exact I|exact R]].
    destruct (mcs_coeffs s) as [cx|]; [|subst c; cbn; split; [exact I|exact R]].
    destruct Hc as (l & -> & Ll & X). rewrite X. change (zlen (ashape cx) - 1)%Z with (zlen (ashape cx) + -1)%Z.
    destruct (lget (ashape cx) _) as [ns|e] eqn:El; cbn [bind negb]; [|cbn; split; [exact I|exact R]].
    set (h1 := h_alloc h true (mkArr [N; ns] junk)). set (h2 := h_alloc h1 true (mkArr [N; D; ns] junk)).
    assert (G2 : grows h h2) by (eapply grows_trans; apply grows_alloc).
    replace (nd_arr (h_mem h2 l)) with cx by (destruct G2 as [_ G2]; rewrite G2 by lia; congruence).
    rewrite El.
    replace (nd_arr (h_mem h2 (h_next h))) with (mkArr [N; ns] junk) by (cbn; rewrite put_other by (cbn; lia); cbn; rewrite put_same; reflexivity).
    assert (Z4 : ((1 <=? zlen (mcs_a s)) && (zlen (mcs_a s) <=? 4))%Z%bool = true) by (destruct Dd as [Q _]; unfold zlen; lia).
    rewrite Z4. cbn [bind].
    destruct (splines_G _ _ _ _ cx _ _ _) as [[u v]|e]; cbn [bind fst snd].
    + split.
      * unfold seen2. cbn [fst snd]. rewrite !h_read0. cbn [bind]. cbn [h_store h_mem]. rewrite put_same.
        rewrite put_other by lia. cbn [h_store h_mem]. rewrite put_same. reflexivity.
      * apply (mrel_grows _ _ _ h); [exact R|]. apply grows_store; [|lia]. apply grows_store; [exact G2|lia].
    + cbn. split; [exact I|]. apply (mrel_grows _ _ _ h); assumption.
Qed.
End Any.
