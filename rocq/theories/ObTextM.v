(** Histories of CubicSplines that read the grid. *)
From Coq Require Import ZArith List Bool String Lia.
From Verif Require Import Base SplineModel PrefilterModel ArrayModel CartesianModel GradModel ObjectModel SpecObject PySyntax ObSem SpecObText SpecObGrid ObText ObTextA ObTextB ObTextC ObTextD ObTextE ObTextF ObTextG ObTextH ObTextI ObTextJ ObTextK ObTextL.
Import ListNotations.
Open Scope Z_scope.
Open Scope string_scope.
Local Opaque run cubic_program.
Section Any.
Context {T : Type} {NT : Num T}.
Lemma mrows_put junk (h : heap T) a b n c tl tl' N D f d : mcs_rows_result junk h a b n c tl' N D f d = put_att (matt a b n c tl') (mcs_rows_result junk h a b n c tl N D f d).
Proof.
  unfold mcs_rows_result, put_att. destruct (negb _); [reflexivity|]. destruct (negb _); [reflexivity|].
  destruct c as [| | | | | | | | |l vs|]; try reflexivity. destruct vs; [|reflexivity]. destruct (last_dim _); [|reflexivity]. destruct d.
  - destruct (last_dim _); [|reflexivity]. destruct (splines_G _ _ _ _ _ _ _ _); reflexivity.
  - destruct (eval_cubic _ _ _ _ _) as [[? []]|]; reflexivity.
Qed.
Lemma mrows_grow junk (h : heap T) a b n c tl N D f : grows h (fst (fst (mcs_rows_result junk h a b n c tl N D f false))).
Proof.
  unfold mcs_rows_result. destruct (negb _); [apply grows_refl|]. destruct (negb _); [apply grows_refl|].
  destruct c as [| | | | | | | | |l vs|]; try apply grows_refl. destruct vs; [|apply grows_refl]. destruct (last_dim _); [|apply grows_refl].
  destruct (eval_cubic _ _ _ _ _) as [[? []]|]; cbn [fst snd]; try apply grows_alloc. apply grows_store; [apply grows_alloc|apply le_n].
Qed.
Lemma ravel_put att (r : state T * res (ov T)) : ravel_of (put_att att r) = put_att att (ravel_of r).
Proof.
  destruct r as [[h at0] [v|e]]; [|reflexivity]. destruct v; try reflexivity. unfold ravel_of, put_att. cbn [fst snd].
  destruct (areshape _ _); reflexivity.
Qed.
Lemma ravel_grow (h : heap T) (r : state T * res (ov T)) : grows h (fst (fst r)) -> grows h (fst (fst (ravel_of r))).
Proof.
  destruct r as [[h' at0] [v|e]]; [|auto]. destruct v; auto. unfold ravel_of. cbn [fst snd]. intros G.
  destruct (areshape _ _) as [v|]; [|exact G]. refine (grows_trans _ _ _ G (proj1 (ret_grows (h', at0) (VArr v)))).
Qed.
Lemma mcs_call_put junk (h : heap T) a b n c tl tl' p : dims a b n -> coef_ref c -> rows p ->
  run junk cubic_program "CubicSplines" "__call__" [pval p] [] (h, matt a b n c tl') =
  put_att (matt a b n c tl') (run junk cubic_program "CubicSplines" "__call__" [pval p] [] (h, matt a b n c tl)) /\
  grows h (fst (fst (run junk cubic_program "CubicSplines" "__call__" [pval p] [] (h, matt a b n c tl)))).
Proof.
  intros D Cr Hp. destruct p as [x|q]; cbn [pval].
  - rewrite !mcs_call_point_tree by assumption. rewrite (mrows_put junk h a b n c tl tl'). split; [apply ravel_put|apply ravel_grow, mrows_grow].
  - destruct Hp as (N & Dm & Hq). destruct q as [sh f]. cbn in Hq. subst sh. rewrite !mcs_call_rows_tree by assumption. split; [apply mrows_put|apply mrows_grow].
Qed.
Lemma mcs_diff_put junk (h : heap T) a b n c tl tl' p : dims a b n -> coef_ref c -> rows p ->
  run junk cubic_program "CubicSplines" "interpolate" [pval p; OB true] [] (h, matt a b n c tl') =
  put_att (matt a b n c tl') (run junk cubic_program "CubicSplines" "interpolate" [pval p; OB true] [] (h, matt a b n c tl)).
Proof.
  intros D Cr Hp. destruct p as [x|q]; cbn [pval].
  - rewrite !mcs_point_tree by assumption. reflexivity.
  - destruct Hp as (N & Dm & Hq). destruct q as [sh f]. cbn in Hq. subst sh. rewrite !mcs_rows_tree by assumption. apply mrows_put.
Qed.

Definition mgrel (k : nat) (m : memory T) (s : cubics T) (g : option nat) (K : option (arr T)) (w : state T) : Prop :=
  exists c tl tl', snd w = matt (mcs_a s) (mcs_b s) (mcs_orders s) c tl' /\ mrel k m s (fst w, matt (mcs_a s) (mcs_b s) (mcs_orders s) c tl) /\
  mtails g tl tl' /\
  match g with
  | None => K = None
  | Some l => (k <= l < h_next (fst w))%nat /\ K = Some (nd_arr (h_mem (fst w) l)) /\ c <> ORef l []
  end.
Lemma matt_inj (a b : list T) n c tl c' tl' : matt a b n c tl = matt a b n c' tl' -> c = c' /\ tl = tl'.
Proof. unfold matt. cbn. intros E. injection E. auto. Qed.
Lemma mgrel_grows k (m : memory T) s g K h h' att : mgrel k m s g K (h, att) -> grows h h' -> mgrel k m s g K (h', att).
Proof.
  intros (c & tl & tl' & E & R & Tl & G) Gr. cbn [fst snd] in *. exists c, tl, tl'. split; [exact E|]. split; [exact (mrel_grows k m s h h' _ R Gr)|].
  split; [exact Tl|]. destruct g as [l|]; [|exact G]. destruct G as (G1 & G2 & G3). destruct Gr as [A B]. cbn [fst]. split; [lia|]. split; [rewrite B by lia; exact G2|exact G3].
Qed.
Lemma mstep_grid nan (m : memory T) s id : mcs_a (fst (mcs_step nan m s id)) = mcs_a s /\ mcs_b (fst (mcs_step nan m s id)) = mcs_b s /\ mcs_orders (fst (mcs_step nan m s id)) = mcs_orders s.
Proof. unfold mcs_step, mcs_set. match goal with |- context [match ?x with Ok _ => _ | Err _ => _ end] => destruct x as [[? ?]|?] end; cbn; auto. Qed.
Lemma mgrel_setr junk nan k (m : memory T) s h c tl tl' g K id : mgrel k m s g K (h, matt (mcs_a s) (mcs_b s) (mcs_orders s) c tl') -> mtails g tl tl' -> (id < k)%nat ->
  let r := mcs_set_result 86 (loops (np_ops junk) PC cm 3) h (mcs_a s) (mcs_b s) (mcs_orders s) c tl' id in
  mgrel k m (fst (mcs_step nan m s id)) g K (fst r) /\ same_outcome (snd r) (snd (mcs_step nan m s id)).
Proof.
  intros R Tl L. unfold mcs_set_result, mcs_step, mcs_set, adim, andim, last_dim.
  pose proof R as (c0 & tl0 & tl0' & E0 & (Kk & M & D & _) & _ & G). cbn [fst snd] in E0, Kk, M, G. destruct (matt_inj _ _ _ _ _ _ _ E0) as [<- <-]. clear E0.
  rewrite (M id L). set (v := nd_arr (m id)).
  change (zlen (ashape v) - 1)%Z with (zlen (ashape v) + -1)%Z.
  assert (R1 : mgrel k m s g K (h_alloc h true v, matt (mcs_a s) (mcs_b s) (mcs_orders s) c tl')) by (apply (mgrel_grows _ _ _ _ _ h); [exact R|apply grows_alloc]).
  destruct (lget _ _) as [ns|e]; cbn [bind]; [|cbn; split; [exact R1|eauto]].
  destruct (areshape v _) as [x|e] eqn:Ex; cbn [bind]; [|cbn; split; [exact R1|eauto]].
  destruct (all_finite x); cbn [negb bind]; [|cbn; split; [exact R1|eauto]].
  unfold filter_mcoeffs, adim, andim. change (zlen (ashape x) - 1)%Z with (zlen (ashape x) + -1)%Z.
  destruct (lget (ashape x) _) as [q|e]; cbn [bind]; [|cbn; split; [exact R1|eauto]].
  set (co := azeros _). set (h2 := h_alloc (h_alloc h true v) true co).
  set (sh := (mcs_orders s ++ [ns])%list) in *.
  rewrite (loops_S _ _ _ 2).
  destruct (loop_ok junk 86 nan 2 (mcs_a s) (mcs_b s) (mcs_orders s) (h_next h) sh q (S (h_next h)) (matt (mcs_a s) (mcs_b s) (mcs_orders s) c tl')
              (ret_loop (h_next h) sh) (after_loop (h_next h) sh) (zrange q) (or_introl eq_refl) D
              (loop_env (mcs_a s) (mcs_b s) (mcs_orders s) (h_next h) sh q (S (h_next h))) h2 x co) as (h' & Fr & P).
  - left. reflexivity.
  - cbn. lia.
  - cbn. lia.
  - lia.
  - rewrite h_read1. cbn. rewrite put_other by (cbn; lia). cbn. rewrite put_same. exact Ex.
  - cbn. rewrite put_same. reflexivity.
  - assert (Gr : grows h h').
    { destruct Fr as [F1 F2]. cbn in F1. split; [lia|]. intros i Hi. rewrite F2 by (cbn; lia). cbn. rewrite put_other by (cbn; lia). cbn. apply put_other. lia. }
    cbn zeta in P. unfold step in P.
    match type of P with match ?X with _ => _ end => match goal with |- context [foldM ?g ?l ?a] => change X with (foldM g l a) in P; destruct (foldM g l a) as [z|e] end end; cbn [bind].
    + destruct P as (E' & HE & Pr & Pz). cbv beta in Pr |- *. rewrite Pr.
      assert (Lk : look E' "coefs" = Some (ORef (S (h_next h)) [])) by (destruct HE as [->|[j ->]]; reflexivity).
      unfold after_loop. rewrite Lk. cbn [fst snd okret].
      split; [|reflexivity].
      destruct Gr as [G1 G2]. destruct Fr as [F1 _]. cbn in F1.
      exists (ORef (S (h_next h)) []), [("__mvalues__", ORef (h_next h) [sh])], (set_var tl' "__mvalues__" (ORef (h_next h) [sh])). cbn [fst snd mcs_a mcs_b mcs_orders mcs_coeffs].
      split; [destruct Tl as [[->|[u ->]] Tl]; destruct g as [l|]; try (subst tl'; reflexivity); destruct Tl as [->|(u' & Eu & ->)]; try discriminate Eu; reflexivity|].
      split; [|split].
      * split; [cbn; lia|]. split; [intros i Hi; cbn; rewrite G2 by lia; auto|]. split; [exact D|].
        exists (ORef (S (h_next h)) []), [("__mvalues__", ORef (h_next h) [sh])]. cbn [fst snd mcs_a mcs_b mcs_orders mcs_coeffs].
        split; [reflexivity|]. split; [right; eauto|]. exists (S (h_next h)). split; [reflexivity|]. split; [lia|exact Pz].
      * split; [right; eauto|]. destruct Tl as [[->|[u ->]] Tl]; destruct g as [l|]; try (subst tl'; reflexivity); destruct Tl as [->|(u' & Eu & ->)]; try discriminate Eu; cbn; eauto.
      * destruct g as [l|]; [|exact G]. destruct G as (Gl & GK & Gc). split; [lia|]. split; [rewrite G2 by lia; exact GK|]. intros [= Q]. lia.
    + destruct P as [e' Pr]. cbv beta in Pr |- *. rewrite Pr. cbn [fst snd]. split; [|cbn; eauto]. apply (mgrel_grows _ _ _ _ _ h); assumption.
Qed.
Lemma mgrel_set junk nan k (m : memory T) s g K w id : mgrel k m s g K w -> (id < k)%nat ->
  let r := run junk cubic_program "CubicSplines" "set_values" [ORef id []] [] w in
  mgrel k m (fst (mcs_step nan m s id)) g K (fst r) /\ same_outcome (snd r) (snd (mcs_step nan m s id)).
Proof.
  destruct w as [h att]. intros R L. pose proof R as (c & tl & tl' & E & (_ & _ & D & _) & Tl & _). cbn [fst snd] in E. subst att.
  pose proof (mset_tails junk h (mcs_a s) (mcs_b s) (mcs_orders s) c tl tl' g id D Tl) as Q. cbv zeta. revert Q.
  generalize (run junk cubic_program "CubicSplines" "set_values" [ORef id []] [] (h, matt (mcs_a s) (mcs_b s) (mcs_orders s) c tl')). intros r ->.
  exact (mgrel_setr junk nan k m s h c tl tl' g K id R Tl L).
Qed.
Lemma mgrel_call junk k (m : memory T) s g K w p : mgrel k m s g K w -> rows p ->
  let r := run junk cubic_program "CubicSplines" "__call__" [pval p] [] w in
  same (seen r) (mcs_call junk s p) /\ mgrel k m s g K (fst r).
Proof.
  destruct w as [h att]. intros R0 Hp. pose proof R0 as (c & tl & tl' & E & R & G). cbn [fst snd] in E, R. subst att.
  destruct (mrel_coef_ref _ _ _ _ _ _ R) as [Cr _]. pose proof R as (_ & _ & D & _).
  destruct (mcs_call_put junk h (mcs_a s) (mcs_b s) (mcs_orders s) c tl tl' p D Cr Hp) as [Q Gr].
  pose proof (proj1 (mcs_call_ok junk k m s _ p R Hp)) as S1. cbv zeta in S1 |- *. revert Q Gr S1.
  generalize (run junk cubic_program "CubicSplines" "__call__" [pval p] [] (h, matt (mcs_a s) (mcs_b s) (mcs_orders s) c tl')).
  generalize (run junk cubic_program "CubicSplines" "__call__" [pval p] [] (h, matt (mcs_a s) (mcs_b s) (mcs_orders s) c tl)).
  intros q q' -> Gr S1. rewrite seen_put. split; [exact S1|]. unfold put_att. cbn [fst]. exact (mgrel_grows k m s g K h _ _ R0 Gr).
Qed.
Lemma mgrel_write k (m : memory T) s g K w id idx x : mgrel k m s g K w -> (id < k)%nat ->
  mgrel k (written m id idx x) s g K (mkHeap (h_next (fst w)) (written (h_mem (fst w)) id idx x), snd w).
Proof.
  destruct w as [h att]. intros (c & tl & tl' & E & R & Tl & G) L. cbn [fst snd] in *. subst att. exists c, tl, tl'. split; [reflexivity|].
  split; [exact (mrel_write k m s (h, _) id idx x R L)|]. split; [exact Tl|]. cbn [fst h_next h_mem]. destruct g as [l|]; [|exact G].
  destruct G as (Gl & GK & Gc). split; [exact Gl|]. split; [rewrite written_other by lia; exact GK|exact Gc].
Qed.
Lemma mgrel_gwrite k (m : memory T) s l K w idx x : mgrel k m s (Some l) K w ->
  mgrel k m s (Some l) (option_map (entry idx x) K) (mkHeap (h_next (fst w)) (written (h_mem (fst w)) l idx x), snd w).
Proof.
  destruct w as [h att]. intros (c & tl & tl' & E & R & Tl & Gl & GK & Gc). cbn [fst snd] in *. subst att. exists c, tl, tl'. split; [reflexivity|].
  split; [|split; [exact Tl|]; cbn [fst h_next h_mem]; split; [exact Gl|]; split; [subst K; unfold written; rewrite Nat.eqb_refl; reflexivity|auto]].
  destruct R as (K1 & M1 & D1 & c1 & tl1 & E1 & Tl1 & Hc). cbn [fst snd] in *. destruct (matt_inj _ _ _ _ _ _ _ E1) as [<- <-].
  split; [exact K1|]. split; [intros i Hi; cbn; rewrite written_other by lia; exact (M1 i Hi)|]. split; [exact D1|]. exists c, tl. split; [reflexivity|]. split; [exact Tl1|]. cbn [fst snd].
  destruct (mcs_coeffs s); [|exact Hc]. destruct Hc as (i & -> & Li & X). exists i. split; [reflexivity|]. split; [exact Li|]. cbn. rewrite written_other by congruence. exact X.
Qed.
Lemma mgrel_read junk k (m : memory T) s g K w : mgrel k m s g K w ->
  let r := run junk cubic_program "CubicSplines" "grid" [] [] w in
  match g with
  | Some l => r = (w, Ok (ORef l []))
  | None => match cs_grid (mcs_a s) (mcs_b s) (mcs_orders s) with
            | Err e => r = (w, Err e)
            | Ok P => snd r = Ok (ORef (h_next (fst w)) []) /\ nd_arr (h_mem (fst (fst r)) (h_next (fst w))) = P /\ mgrel k m s (Some (h_next (fst w))) (Some P) (fst r)
            end
  end.
Proof.
  destruct w as [h att]. intros (c & tl & tl' & E & R & Tl & G). cbn [fst snd] in *. subst att. pose proof R as (_ & _ & D & _). cbv zeta.
  destruct g as [l|].
  - exact (mgrid_again junk h _ _ _ c tl tl' l D Tl).
  - destruct Tl as [Tl ->]. pose proof (mcs_grid_tree junk h (mcs_a s) (mcs_b s) (mcs_orders s) c tl D Tl) as Q. revert Q.
    generalize (run junk cubic_program "CubicSplines" "grid" [] [] (h, matt (mcs_a s) (mcs_b s) (mcs_orders s) c tl)). intros r ->.
    unfold grid_result. destruct (cs_grid _ _ _) as [P|e]; [|reflexivity]. cbn [fst snd].
    assert (X : nd_arr (h_mem (h_alloc h true P) (h_next h)) = P) by (cbn; rewrite put_same; reflexivity).
    split; [reflexivity|]. split; [exact X|]. exists c, tl, (tl ++ [("__grid__", ORef (h_next h) [])])%list. cbn [fst snd].
    split; [unfold matt; rewrite app_assoc; reflexivity|]. split; [apply (mrel_grows _ _ _ h); [exact R|apply grows_alloc]|].
    split; [split; [exact Tl|left; reflexivity]|]. pose proof (proj1 R) as Kk. cbn [fst] in Kk. split; [cbn; lia|]. split; [rewrite X; reflexivity|].
    destruct (mrel_coef_ref _ _ _ _ _ _ R) as [_ Hc].
    destruct (mcs_coeffs s); [|rewrite Hc; discriminate]. destruct Hc as (i & -> & Li & _). intros [= Q]. lia.
Qed.
Section Runs.
Context (rn : string -> list (ov T) -> state T -> state T * res (ov T)).
Context (junk : list Z -> T) (nan : T).
Context (r_set : forall k (m : memory T) s g K w id, mgrel k m s g K w -> (id < k)%nat ->
  let r := rn "set_values" [ORef id []] w in mgrel k m (fst (mcs_step nan m s id)) g K (fst r) /\ same_outcome (snd r) (snd (mcs_step nan m s id))).
Context (r_set0 : forall k (m : memory T) s w id, mrel k m s w -> (id < k)%nat ->
  let r := rn "set_values" [ORef id []] w in mrel k m (fst (mcs_step nan m s id)) (fst r) /\ same_outcome (snd r) (snd (mcs_step nan m s id))).
Context (r_call : forall k (m : memory T) s g K w p, mgrel k m s g K w -> rows p ->
  let r := rn "__call__" [pval p] w in same (seen r) (mcs_call junk s p) /\ mgrel k m s g K (fst r)).
Context (r_call0 : forall k (m : memory T) s w p, mrel k m s w -> rows p ->
  let r := rn "__call__" [pval p] w in same (seen r) (mcs_call junk s p) /\ mrel k m s (fst r)).
Context (r_read : forall k (m : memory T) s g K w, mgrel k m s g K w ->
  let r := rn "grid" [] w in
  match g with
  | Some l => r = (w, Ok (ORef l []))
  | None => match cs_grid (mcs_a s) (mcs_b s) (mcs_orders s) with
            | Err e => r = (w, Err e)
            | Ok P => snd r = Ok (ORef (h_next (fst w)) []) /\ nd_arr (h_mem (fst (fst r)) (h_next (fst w))) = P /\ mgrel k m s (Some (h_next (fst w))) (Some P) (fst r)
            end
  end).
Lemma mgh_rel k hist : forall (m : memory T) s g K w w0 last, mgrel k m s g K w -> mrel k m s w0 -> Forall (deed_ok k) (deeds hist) ->
  (forall e, cs_grid (mcs_a s) (mcs_b s) (mcs_orders s) = Err e -> g = None) ->
  let r := gh rn hist w last g in
  let r0 := hh rn (deeds hist) w0 last in
  exists s', snd (fst r) = snd r0 /\ mrel k (writes (deeds hist) m) s' (fst r0) /\
    mcs_a s' = mcs_a s /\ mcs_b s' = mcs_b s /\ mcs_orders s' = mcs_orders s /\
    mgrel k (writes (deeds hist) m) s' (snd r) (match cs_grid (mcs_a s) (mcs_b s) (mcs_orders s) with Ok P => grid_after hist P K | Err _ => None end) (fst (fst r)).
Proof.
  induction hist as [|e hist IH]; intros m s g K w w0 last G R F Hg; cbv zeta.
  - exists s. cbn [gh hh deeds writes fst snd grid_after]. split; [reflexivity|]. split; [exact R|]. do 3 (split; [reflexivity|]).
    destruct (cs_grid _ _ _) as [P|e]; [exact G|]. rewrite (Hg _ eq_refl) in *. pose proof G as (c & tl & tl' & _ & _ & _ & ->). exact G.
  - destruct e as [[id|id idx x|p]| |idx x]; cbn [deeds] in F |- *.
    + inversion F as [|? ? F1 F2]; subst. cbn [deed_ok] in F1. cbn [gh hh writes grid_after fst snd].
      destruct (r_set k m s g K w id G F1) as [G1 O1]. destruct (r_set0 k m s w0 id R F1) as [R1 O2]. cbv zeta in G1, O1, R1, O2.
      destruct (mstep_grid nan m s id) as (Ea & Eb & En).
      assert (Mi : nd_arr (h_mem (fst w) id) = nd_arr (h_mem (fst w0) id)).
      { destruct G as (c & tl & tl' & _ & (_ & M & _) & _). destruct R as (_ & M0 & _). cbn [fst] in M. rewrite (M id F1), (M0 id F1). reflexivity. }
      revert G1 O1 R1 O2.
      generalize (rn "set_values" [ORef id []] w) as q1.
      generalize (rn "set_values" [ORef id []] w0) as q0. intros q0 q1 G1 O1 R1 O2.
      assert (El : match snd q1 with Ok _ => Some (id, nd_arr (h_mem (fst w) id)) | Err _ => last end = match snd q0 with Ok _ => Some (id, nd_arr (h_mem (fst w0) id)) | Err _ => last end).
      { rewrite Mi. unfold same_outcome in O1, O2. destruct (snd (mcs_step nan m s id)); [rewrite O1, O2; reflexivity|destruct O1 as [? ->], O2 as [? ->]; reflexivity]. }
      rewrite El. rewrite <- Ea, <- Eb, <- En in Hg |- *.
      exact (IH m (fst (mcs_step nan m s id)) g K _ _ _ G1 R1 F2 Hg).
    + inversion F as [|? ? F1 F2]; subst. cbn [deed_ok] in F1. cbn [gh hh writes grid_after fst snd].
      exact (IH (written m id idx x) s g K _ _ last (mgrel_write k m s g K w id idx x G F1) (mrel_write k m s w0 id idx x R F1) F2 Hg).
    + inversion F as [|? ? F1 F2]; subst. cbn [deed_ok] in F1. cbn [gh hh writes grid_after fst snd].
      pose proof (proj2 (r_call k m s g K w p G F1)) as G1. pose proof (proj2 (r_call0 k m s w0 p R F1)) as R1. cbv zeta in G1, R1.
      revert G1 R1. generalize (rn "__call__" [pval p] w) as q1.
      generalize (rn "__call__" [pval p] w0) as q0. intros q0 q1 G1 R1.
      exact (IH m s g K _ _ last G1 R1 F2 Hg).
    + cbn [gh hh writes grid_after fst snd]. pose proof (r_read k m s g K w G) as Q. cbv zeta in Q.
      revert Q. generalize (rn "grid" [] w) as q. intros q Q.
      destruct g as [l|].
      * rewrite Q. cbn [fst snd]. pose proof G as (c & tl & tl' & _ & _ & _ & _ & -> & _). exact (IH m s (Some l) _ w w0 last G R F Hg).
      * assert (K = None) as -> by (destruct G as (c & tl & tl' & _ & _ & _ & ->); reflexivity).
        destruct (cs_grid (mcs_a s) (mcs_b s) (mcs_orders s)) as [P|e] eqn:EP.
        -- destruct Q as (Q1 & _ & Q3). rewrite Q1.
           assert (Hg' : forall e, cs_grid (mcs_a s) (mcs_b s) (mcs_orders s) = Err e -> Some (h_next (fst w)) = None) by (rewrite EP; discriminate).
           pose proof (IH m s (Some (h_next (fst w))) (Some P) _ w0 last Q3 R F Hg') as IH1. rewrite EP in IH1. exact IH1.
        -- rewrite Q. cbn [fst snd]. rewrite <- EP in Hg. pose proof (IH m s None None w w0 last G R F Hg) as IH1. rewrite EP in IH1. exact IH1.
    + cbn [gh hh writes grid_after fst snd]. destruct g as [l|].
      * exact (IH m s (Some l) _ _ w0 last (mgrel_gwrite k m s l K w idx x G) R F Hg).
      * assert (K = None) as -> by (destruct G as (c & tl & tl' & _ & _ & _ & ->); reflexivity). exact (IH m s None None w w0 last G R F Hg).
Qed.
End Runs.
Lemma mgrel_hist junk (nan : T) k hist : forall (m : memory T) s g K w w0 last, mgrel k m s g K w -> mrel k m s w0 -> Forall (deed_ok k) (deeds hist) ->
  (forall e, cs_grid (mcs_a s) (mcs_b s) (mcs_orders s) = Err e -> g = None) ->
  let r := ghistory junk cubic_program "CubicSplines" hist w last g in
  let r0 := history junk cubic_program "CubicSplines" (deeds hist) w0 last in
  exists s', snd (fst r) = snd r0 /\ mrel k (writes (deeds hist) m) s' (fst r0) /\
    mcs_a s' = mcs_a s /\ mcs_b s' = mcs_b s /\ mcs_orders s' = mcs_orders s /\
    mgrel k (writes (deeds hist) m) s' (snd r) (match cs_grid (mcs_a s) (mcs_b s) (mcs_orders s) with Ok P => grid_after hist P K | Err _ => None end) (fst (fst r)).
Proof.
  intros m s g K w w0 last G R F Hg. rewrite history_hh, ghistory_gh.
  exact (mgh_rel (fun m vs w => run junk cubic_program "CubicSplines" m vs [] w) junk nan (mgrel_set junk nan) (mcs_set_ok junk nan) (mgrel_call junk) (mcs_call_ok junk) (mgrel_read junk)
    k hist m s g K w w0 last G R F Hg).
Qed.
Lemma mgrel_new k (m : memory T) s w : mrel k m s w -> mgrel k m s None None w.
Proof.
  intros R. pose proof R as (_ & _ & _ & c & tl & E & Tl & _). exists c, tl, tl. split; [exact E|]. split; [|split; [split; [exact Tl|reflexivity]|reflexivity]]. rewrite <- E, <- surjective_pairing. exact R.
Qed.
Lemma mnew_grid (nan : T) (a b : list T) n v s : mcs_new nan a b n v = Ok s -> mcs_a s = a /\ mcs_b s = b /\ mcs_orders s = n.
Proof.
  unfold mcs_new. destruct (_ || _); [discriminate|]. destruct v as [v|]; [|intros [= <-]; auto].
  pose proof (mstep_grid nan (fun _ => mkNd true v) (mkMCS a b n None None) 0) as Q. unfold mcs_step in Q. cbn [nd_arr] in Q.
  destruct (mcs_set _ _ _) as [s1 [u|e]]; cbn in *; [|discriminate]. intros [= <-]. exact Q.
Qed.
Lemma mgboth junk (nan : T) k (m : memory T) s a b n w0 w1 hist last : mrel k m s w0 -> mrel k m s w1 -> mcs_a s = a /\ mcs_b s = b /\ mcs_orders s = n -> Forall (deed_ok k) (deeds hist) ->
  let r := ghistory junk cubic_program "CubicSplines" hist w0 last None in
  let w := fst (fst r) in
  let r0 := history junk cubic_program "CubicSplines" (deeds hist) w1 last in
  snd (fst r) = snd r0 /\
  (forall i, (i < k)%nat -> h_mem (fst w) i = writes (deeds hist) m i) /\
  (forall p, rows p ->
    same (seen (run junk cubic_program "CubicSplines" "__call__" [pval p] [] w)) (seen (run junk cubic_program "CubicSplines" "__call__" [pval p] [] (fst r0))) /\
    same (seen2 (run junk cubic_program "CubicSplines" "interpolate" [pval p; OB true] [] w)) (seen2 (run junk cubic_program "CubicSplines" "interpolate" [pval p; OB true] [] (fst r0)))) /\
  let again := run junk cubic_program "CubicSplines" "grid" [] [] w in
  match mlinspace a b n OrderC with
  | Err e => again = (w, Err e)
  | Ok P => exists l, snd again = Ok (ORef l []) /\ (k <= l)%nat /\
      match snd r with Some l' => l' = l /\ fst again = w | None => True end /\
      nd_arr (h_mem (fst (fst again)) l) = match grid_after hist P None with Some A => A | None => P end
  end.
Proof.
  intros R0 R1 (Ea & Eb & En) F r w r0.
  destruct (mgrel_hist junk nan k hist m s None None w0 w1 last (mgrel_new _ _ _ _ R0) R1 F (fun _ _ => eq_refl)) as (s' & El & R & Sa & Sb & Sn & G).
  fold r r0 in El, R, G. fold w in G. rewrite Ea, Eb, En in *. clear R0 R1.
  split; [exact El|]. split; [destruct G as (c & tl & tl' & _ & (_ & M & _) & _); exact M|]. split.
  - intros p Hp. split.
    + exact (same_trans _ _ _ (proj1 (mgrel_call junk _ _ s' _ _ w p G Hp)) (same_sym _ _ (proj1 (mcs_call_ok junk _ _ s' (fst r0) p R Hp)))).
    + pose proof (proj1 (mcs_diff_ok junk _ _ s' (fst r0) p R Hp)) as Q0. cbv zeta in Q0.
      destruct G as (c & tl & tl' & E & Rw & _). destruct (mrel_coef_ref _ _ _ _ _ _ Rw) as [Cr _]. pose proof Rw as (_ & _ & Dd & _).
      pose proof (proj1 (mcs_diff_ok junk _ _ s' _ p Rw Hp)) as Q1. cbv zeta in Q1.
      pose proof (mcs_diff_put junk (fst w) _ _ _ c tl tl' p Dd Cr Hp) as Q2. rewrite <- E, <- surjective_pairing in Q2.
      revert Q0 Q1 Q2. generalize (run junk cubic_program "CubicSplines" "interpolate" [pval p; OB true] [] w).
      generalize (run junk cubic_program "CubicSplines" "interpolate" [pval p; OB true] [] (fst r0)).
      generalize (run junk cubic_program "CubicSplines" "interpolate" [pval p; OB true] [] (fst w, matt (mcs_a s') (mcs_b s') (mcs_orders s') c tl)).
      intros q2 q0 q1 Q0 Q1 ->. change (seen2 (put_att (snd w) q2)) with (seen2 q2). exact (same_trans _ _ _ Q1 (same_sym _ _ Q0)).
  - pose proof (mgrel_read junk _ _ s' _ _ w G) as Q. cbv zeta in Q |- *. rewrite Sa, Sb, Sn in Q. unfold cs_grid in G, Q.
    destruct (mlinspace a b n OrderC) as [P|e].
    + destruct (snd r) as [l|].
      * rewrite Q. cbn [fst snd]. exists l. split; [reflexivity|]. destruct G as (c & tl & tl' & _ & _ & _ & Gl & GK & _). rewrite GK. split; [lia|]. split; [auto|reflexivity].
      * destruct Q as (Q1 & Q2 & Q3). exists (h_next (fst w)). split; [exact Q1|]. destruct G as (c & tl & tl' & _ & Rw & _ & GK). rewrite GK. split; [exact (proj1 Rw)|]. split; [exact I|exact Q2].
    + destruct (snd r) as [l|]; [|exact Q]. destruct G as (c & tl & tl' & _ & _ & _ & _ & GK & _). discriminate GK.
Qed.
Lemma mgtext junk a b n (h : heap T) hist : dims a b n -> Forall (deed_ok (h_next h)) (deeds hist) ->
  let w0 := fst (make junk cubic_program "CubicSplines" a b n None h) in
  let r := ghistory junk cubic_program "CubicSplines" hist w0 None None in
  let w := fst (fst r) in
  let r0 := history junk cubic_program "CubicSplines" (deeds hist) w0 None in
  snd (fst r) = snd r0 /\
  (forall i, (i < h_next h)%nat -> h_mem (fst w) i = writes (deeds hist) (h_mem h) i) /\
  (forall p, rows p ->
    same (seen (run junk cubic_program "CubicSplines" "__call__" [pval p] [] w)) (seen (run junk cubic_program "CubicSplines" "__call__" [pval p] [] (fst r0))) /\
    same (seen2 (run junk cubic_program "CubicSplines" "interpolate" [pval p; OB true] [] w)) (seen2 (run junk cubic_program "CubicSplines" "interpolate" [pval p; OB true] [] (fst r0)))) /\
  let again := run junk cubic_program "CubicSplines" "grid" [] [] w in
  match mlinspace a b n OrderC with
  | Err e => again = (w, Err e)
  | Ok P => exists l, snd again = Ok (ORef l []) /\ (h_next h <= l)%nat /\
      match snd r with Some l' => l' = l /\ fst again = w | None => True end /\
      nd_arr (h_mem (fst (fst again)) l) = match grid_after hist P None with Some A => A | None => P end
  end.
Proof.
  intros D F. pose proof (mcs_make_ok junk (n_ofZ 0) (h_next h) a b n None h D (le_n _) I) as Hm. cbv zeta in Hm. cbn [option_map] in Hm.
  destruct (mcs_new (n_ofZ 0) a b n None) as [s0|e] eqn:E0.
  2:{ exfalso. unfold mcs_new in E0. destruct D as (_ & Lb & Ln). unfold zlen in E0. rewrite Lb, Ln, Z.eqb_refl in E0. discriminate. }
  destruct Hm as [_ R0].
  exact (mgboth junk (n_ofZ 0) _ _ s0 a b n _ _ hist None R0 R0 (mnew_grid _ _ _ _ _ _ E0) F).
Qed.
End Any.
