(** The states of an object of CubicSpline whose grid may have been read. *)
From Coq Require Import ZArith List Bool String Lia.
From Verif Require Import Base SplineModel PrefilterModel ArrayModel CartesianModel GradModel ObjectModel SpecObject PySyntax ObSem SpecObText SpecObGrid ObText ObTextA ObTextB ObTextC ObTextD ObTextE ObTextF ObTextG ObTextH ObTextI.
Import ListNotations.
Open Scope Z_scope.
Open Scope string_scope.
Local Opaque run cubic_program.
Section Any.
Context {T : Type} {NT : Num T}.
(** Calls do not look at the attributes after those of [catt]. *)
Definition put_att (att : list (string * ov T)) (r : state T * res (ov T)) : state T * res (ov T) := ((fst (fst r), att), snd r).
Lemma seen_put att r : seen (put_att att r) = seen r. Proof. reflexivity. Qed.
Lemma rows_put junk (h : heap T) a b n c tl tl' N D f : cs_rows_result junk h a b n c tl' N D f None = put_att (catt a b n c tl') (cs_rows_result junk h a b n c tl N D f None).
Proof.
  unfold cs_rows_result, put_att. destruct (negb _); [reflexivity|]. destruct (_ =? _)%Z; [|reflexivity].
  destruct (cubic_at _ _ _ _ _) as [[? []]|]; reflexivity.
Qed.
Lemma rows_grow junk (h : heap T) a b n c tl N D f : grows h (fst (fst (cs_rows_result junk h a b n c tl N D f None))).
Proof.
  unfold cs_rows_result. destruct (negb _); [apply grows_refl|]. destruct (_ =? _)%Z; [|apply grows_refl].
  destruct (cubic_at _ _ _ _ _) as [[? []]|]; cbn [snd fst]; try apply grows_alloc.
  apply grows_store; [apply grows_alloc|apply le_n].
Qed.
Lemma first_put att (r : state T * res (ov T)) : first_of (put_att att r) = put_att att (first_of r).
Proof.
  destruct r as [[h at0] [v|e]]; [|reflexivity]. destruct v; try reflexivity. unfold first_of, put_att. cbn [fst snd].
  destruct (first_row _) as [[]|]; reflexivity.
Qed.
Lemma first_grow (h : heap T) (r : state T * res (ov T)) : grows h (fst (fst r)) -> grows h (fst (fst (first_of r))).
Proof.
  destruct r as [[h' at0] [v|e]]; [|auto]. destruct v; auto. unfold first_of. cbn [fst snd]. intros G.
  destruct (first_row _) as [v|]; [|exact G]. refine (grows_trans _ _ _ G (proj1 (ret_grows (h', at0) v))).
Qed.
Lemma cs_call_put junk (h : heap T) a b n c tl tl' p : dims a b n -> coef_ref c -> rows p ->
  run junk cubic_program "CubicSpline" "__call__" [pval p] [] (h, catt a b n c tl') =
  put_att (catt a b n c tl') (run junk cubic_program "CubicSpline" "__call__" [pval p] [] (h, catt a b n c tl)) /\
  grows h (fst (fst (run junk cubic_program "CubicSpline" "__call__" [pval p] [] (h, catt a b n c tl)))).
Proof.
  intros D Cr Hp. destruct p as [x|q]; cbn [pval].
  - rewrite !cs_call_point_tree by assumption. rewrite (rows_put junk h a b n c tl tl'). split; [apply first_put|apply first_grow, rows_grow].
  - destruct Hp as (N & Dm & Hq). destruct q as [sh f]. cbn in Hq. subst sh. rewrite !cs_call_rows_tree by assumption. split; [apply rows_put|apply rows_grow].
Qed.
Lemma cs_interp_put junk (h : heap T) a b n c tl tl' p : dims a b n -> coef_ref c -> rows p ->
  run junk cubic_program "CubicSpline" "interpolate" [pval p; ONone; OB false] [] (h, catt a b n c tl') =
  put_att (catt a b n c tl') (run junk cubic_program "CubicSpline" "interpolate" [pval p; ONone; OB false] [] (h, catt a b n c tl)).
Proof.
  intros D Cr Hp. change (@ONone T) with (@vref T None). destruct p as [x|q]; cbn [pval].
  - rewrite !cs_point_tree by assumption. unfold cs_point_result. destruct (negb _); [reflexivity|]. destruct (cubic_at _ _ _ _ _) as [[[] ?]|]; reflexivity.
  - destruct Hp as (N & Dm & Hq). destruct q as [sh f]. cbn in Hq. subst sh. rewrite !cs_rows_tree by assumption. apply rows_put.
Qed.

(** ** The states of an object whose grid may have been read; [K]: what the array contains *)
Definition grel (k : nat) (m : memory T) (s : cubic T) (g : option nat) (K : option (arr T)) (w : state T) : Prop :=
  exists c tl tl', snd w = catt (cs_a s) (cs_b s) (cs_orders s) c tl' /\ crel k m s (fst w, catt (cs_a s) (cs_b s) (cs_orders s) c tl) /\
  match g with
  | None => tl' = tl /\ K = None
  | Some l => with_grid l tl tl' /\ (k <= l < h_next (fst w))%nat /\ K = Some (nd_arr (h_mem (fst w) l)) /\
      c <> ORef l [] /\ (forall vs, tl <> [("__values__", ORef l vs)])
  end.
Lemma catt_inj (a b : list T) n c tl c' tl' : catt a b n c tl = catt a b n c' tl' -> c = c' /\ tl = tl'.
Proof. unfold catt. cbn. intros E. injection E. auto. Qed.
Lemma step_grid (m : memory T) s id : cs_a (fst (cs_step m s id)) = cs_a s /\ cs_b (fst (cs_step m s id)) = cs_b s /\ cs_orders (fst (cs_step m s id)) = cs_orders s.
Proof.
  unfold cs_step, cs_set. repeat match goal with |- context [if ?b then _ else _] => destruct b; try (cbn; auto; fail) | |- context [match ?x with Ok _ => _ | Err _ => _ end] => destruct x as [?|?]; try (cbn; auto; fail) | |- context [match ?x with Some _ => _ | None => _ end] => destruct x; try (cbn; auto; fail) end; cbn; auto.
Qed.
Lemma grel_set junk k (m : memory T) s g K w id : grel k m s g K w -> (id < k)%nat ->
  let r := run junk cubic_program "CubicSpline" "set_values" [ORef id []] [] w in
  grel k m (fst (cs_step m s id)) g K (fst r) /\ same_outcome (snd r) (snd (cs_step m s id)).
Proof.
  destruct w as [h att]. intros (c & tl & tl' & E & R & G) L. cbn [fst snd] in *. subst att.
  pose proof (crel_parts _ _ _ _ _ R) as (c0 & tl0 & E & D & _ & Tl & Kk & M & _). destruct (catt_inj _ _ _ _ _ _ _ E) as [<- <-]. clear E.
  destruct (step_grid m s id) as (Ea & Eb & En).
  pose proof (cs_set_rel k m s h c tl id R L) as [R1 O1]. cbv zeta in R1, O1 |- *.
  destruct g as [l|].
  - destruct G as (Gw & Gl & GK & Gc & Gv). pose proof (cs_set_grid junk h (cs_a s) (cs_b s) (cs_orders s) c tl tl' l id D Gw) as Q. revert Q.
    generalize (run junk cubic_program "CubicSpline" "set_values" [ORef id []] [] (h, catt (cs_a s) (cs_b s) (cs_orders s) c tl')). intros r0 ->. unfold grel. rewrite Ea, Eb, En.
    assert (Wn : with_grid l [("__values__", ORef (h_next h) [cs_orders s])] (set_var tl' "__values__" (ORef (h_next h) [cs_orders s]))).
    { destruct Gw as [[->|[v ->]] [->|(v' & E & ->)]]; try discriminate E; (split; [right; eauto|]); cbn; eauto. }
    assert (A1 : h_mem (h_alloc h true (nd_arr (h_mem h id))) l = h_mem h l) by (cbn; apply put_other; lia).
    assert (V1 : forall vs, [("__values__", ORef (h_next h) [cs_orders s])] <> [("__values__", @ORef T l vs)]) by (intros vs [= Q _]; lia).
    unfold cs_set_result in R1, O1. unfold cs_set_res.
    destruct (negb _); [|destruct (areshape _ _) as [x|e]; [destruct (filter_coeffs _ _ _ x) as [[z|]|e]|]]; cbn [fst snd] in *; (split; [|exact O1]).
    + exists c, tl, tl'. split; [reflexivity|]. split; [exact R1|]. split; [exact Gw|]. split; [cbn; lia|]. split; [rewrite A1; exact GK|]. auto.
    + eexists (ORef (S (h_next h)) []), _, _. split; [reflexivity|]. split; [exact R1|]. split; [exact Wn|]. split; [cbn; lia|].
      split; [cbn [h_alloc h_mem]; rewrite put_other by (cbn; lia); rewrite A1; exact GK|]. split; [intros [= Q]; lia|exact V1].
    + eexists c, _, _. split; [reflexivity|]. split; [exact R1|]. split; [exact Wn|]. split; [cbn; lia|]. split; [rewrite A1; exact GK|]. auto.
    + eexists c, _, _. split; [reflexivity|]. split; [exact R1|]. split; [exact Wn|]. split; [cbn; lia|]. split; [rewrite A1; exact GK|]. auto.
    + exists c, tl, tl'. split; [reflexivity|]. split; [exact R1|]. split; [exact Gw|]. split; [cbn; lia|]. split; [rewrite A1; exact GK|]. auto.
  - destruct G as [-> ->]. rewrite cs_set_tree by assumption. split; [|exact O1].
    pose proof R1 as (_ & _ & _ & c1 & tl1 & E1 & _). unfold grel. exists c1, tl1, tl1. split; [exact E1|]. split; [|auto].
    rewrite <- E1. rewrite <- surjective_pairing. exact R1.
Qed.
Lemma grel_call junk k (m : memory T) s g K w p : grel k m s g K w -> rows p ->
  let r := run junk cubic_program "CubicSpline" "__call__" [pval p] [] w in
  same (seen r) (cs_call junk s p) /\ grel k m s g K (fst r).
Proof.
  destruct w as [h att]. intros (c & tl & tl' & E & R & G) Hp. cbn [fst snd] in *. subst att.
  pose proof (crel_parts _ _ _ _ _ R) as (c0 & tl0 & E & D & Cr & Tl & Kk & M & _). destruct (catt_inj _ _ _ _ _ _ _ E) as [<- <-]. clear E.
  destruct (cs_call_put junk h _ _ _ c tl tl' p D Cr Hp) as [-> Gr]. cbv zeta. rewrite seen_put.
  destruct (cs_call_ok junk k m s _ p R Hp) as [S1 R1]. cbv zeta in S1, R1. split; [exact S1|].
  set (r := run _ _ _ _ _ _ _) in *. clearbody r. destruct r as [[h' att'] rr]. cbn [fst snd put_att] in *.
  exists c, tl, tl'. split; [reflexivity|]. split; [cbn [fst]; apply (crel_grows _ _ _ h); assumption|]. cbn [fst].
  destruct g as [l|]; [|exact G]. destruct G as (Gw & Gl & GK & Gc). destruct Gr as [G1 G2]. split; [exact Gw|]. split; [lia|]. split; [rewrite G2 by lia; exact GK|exact Gc].
Qed.
Lemma grel_write k (m : memory T) s g K w id idx x : grel k m s g K w -> (id < k)%nat ->
  grel k (written m id idx x) s g K (mkHeap (h_next (fst w)) (written (h_mem (fst w)) id idx x), snd w).
Proof.
  destruct w as [h att]. intros (c & tl & tl' & E & R & G) L. cbn [fst snd] in *. subst att. exists c, tl, tl'. split; [reflexivity|].
  split; [exact (crel_write k m s (h, _) id idx x R L)|]. cbn [fst h_next h_mem]. destruct g as [l|]; [|exact G].
  destruct G as (Gw & Gl & GK & Gc). split; [exact Gw|]. split; [exact Gl|]. split; [rewrite written_other by lia; exact GK|exact Gc].
Qed.
(** Writing to the array of the grid. *)
Lemma grel_gwrite k (m : memory T) s l K w idx x : grel k m s (Some l) K w ->
  grel k m s (Some l) (option_map (entry idx x) K) (mkHeap (h_next (fst w)) (written (h_mem (fst w)) l idx x), snd w).
Proof.
  destruct w as [h att]. intros (c & tl & tl' & E & R & Gw & Gl & GK & Gc & Gv). cbn [fst snd] in *. subst att. exists c, tl, tl'. split; [reflexivity|].
  split; [|cbn [fst h_next h_mem]; split; [exact Gw|]; split; [exact Gl|]; split; [subst K; unfold written; rewrite Nat.eqb_refl; reflexivity|auto]].
  destruct R as (K1 & M1 & D1 & c1 & tl1 & E1 & Hc & Ht). cbn [fst snd] in *. destruct (catt_inj _ _ _ _ _ _ _ E1) as [<- <-].
  split; [exact K1|]. split; [intros i Hi; cbn; rewrite written_other by lia; exact (M1 i Hi)|]. split; [exact D1|]. exists c, tl. split; [reflexivity|]. cbn [fst snd].
  split.
  - destruct (cs_coeffs s); [|exact Hc]. destruct Hc as (i & -> & Li & X). exists i. split; [reflexivity|]. split; [exact Li|]. cbn. rewrite written_other by congruence. exact X.
  - destruct (cs_values s); [|exact Ht]. destruct Ht as (i & vs & -> & Li & X). exists i, vs. split; [reflexivity|]. split; [exact Li|].
    rewrite <- X. apply read_same. cbn. apply written_other. intros ->. exact (Gv vs eq_refl).
Qed.
(** Reading the grid. *)
Lemma grel_read junk k (m : memory T) s g K w : grel k m s g K w ->
  let r := run junk cubic_program "CubicSpline" "grid" [] [] w in
  match g with
  | Some l => r = (w, Ok (ORef l []))
  | None => match cs_grid (cs_a s) (cs_b s) (cs_orders s) with
            | Err e => r = (w, Err e)
            | Ok P => snd r = Ok (ORef (h_next (fst w)) []) /\ nd_arr (h_mem (fst (fst r)) (h_next (fst w))) = P /\ grel k m s (Some (h_next (fst w))) (Some P) (fst r)
            end
  end.
Proof.
  destruct w as [h att]. intros (c & tl & tl' & E & R & G). cbn [fst snd] in *. subst att.
  pose proof (crel_parts _ _ _ _ _ R) as (c0 & tl0 & E & D & Cr & Tl & Kk & M & _). destruct (catt_inj _ _ _ _ _ _ _ E) as [<- <-]. clear E. cbv zeta.
  destruct g as [l|].
  - destruct G as (Gw & _). exact (cs_grid_again junk h _ _ _ c tl tl' l D Gw).
  - destruct G as [-> ->]. rewrite cs_grid_tree by assumption. unfold grid_result. destruct (cs_grid _ _ _) as [P|e]; [|reflexivity]. cbn [fst snd].
    assert (X : nd_arr (h_mem (h_alloc h true P) (h_next h)) = P) by (cbn; rewrite put_same; reflexivity).
    split; [reflexivity|]. split; [exact X|]. exists c, tl, (tl ++ [("__grid__", ORef (h_next h) [])])%list. cbn [fst snd].
    split; [unfold catt; rewrite app_assoc; reflexivity|]. split; [apply (crel_grows _ _ _ h); [exact R|apply grows_alloc]|].
    split; [split; [exact Tl|left; reflexivity]|]. split; [cbn; lia|]. split; [rewrite X; reflexivity|].
    destruct R as (_ & _ & _ & c1 & tl1 & E1 & Hc & Ht). cbn [fst snd] in *. destruct (catt_inj _ _ _ _ _ _ _ E1) as [<- <-]. split.
    + destruct (cs_coeffs s); [|rewrite Hc; discriminate]. destruct Hc as (i & -> & Li & _). intros [= Q]. lia.
    + intros vs. destruct (cs_values s); [|rewrite Ht; discriminate]. destruct Ht as (i & vs' & -> & Li & _). intros [= Q _]. lia.
Qed.
End Any.
