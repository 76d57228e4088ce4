(** The same for LinearSpline and LinearSplines; histories. *)
From Coq Require Import ZArith List Bool String Lia.
From Verif Require Import Base SplineModel PrefilterModel ArrayModel CartesianModel GradModel ObjectModel SpecObject PySyntax ObSem SpecObText ObText ObTextA ObTextB ObTextC ObTextD ObTextE ObTextF.
Import ListNotations.
Open Scope Z_scope.
Open Scope string_scope.
Local Opaque run cubic_program linear_program.
Section Any.
Context {T : Type} {NT : Num T}.
Definition held (k : nat) (h : heap T) (st : option (store T)) (v : option (nat * list (list Z))) : Prop :=
  match st, v with
  | None, None => True
  | Some (View id sh), Some (l, vs) => l = id /\ vs = [sh] /\ (id < k)%nat
  | Some (Own a), Some (l, vs) => vs = [] /\ (k <= l < h_next h)%nat /\ nd_arr (h_mem h l) = a
  | _, _ => False
  end.
Definition lrel (k : nat) (m : memory T) (s : linear T) (w : state T) : Prop :=
  (k <= h_next (fst w))%nat /\ (forall i, (i < k)%nat -> h_mem (fst w) i = m i) /\ dims (ls_smin s) (ls_smax s) (ls_orders s) /\
  exists v, snd w = latt (ls_smin s) (ls_smax s) (ls_orders s) (ltail (ls_multi s) v) /\ held k (fst w) (ls_values s) v.
Lemma lrel_grows k (m : memory T) s h h' att : lrel k m s (h, att) -> grows h h' -> lrel k m s (h', att).
Proof.
  intros (K & M & D & v & E & Hv) [G1 G2]. cbn [fst snd] in *.
  split; [cbn; lia|]. split; [intros i Hi; cbn; rewrite G2 by lia; apply M; exact Hi|]. split; [exact D|].
  exists v. split; [exact E|]. cbn [fst snd]. destruct (ls_values s) as [[a|id sh]|]; destruct v as [[l vs]|]; cbn in *; auto.
  destruct Hv as (-> & L & X). split; [reflexivity|]. split; [lia|]. rewrite G2 by lia. exact X.
Qed.
Lemma lrel_write k (m : memory T) s w id idx x : lrel k m s w -> (id < k)%nat ->
  lrel k (written m id idx x) s (mkHeap (h_next (fst w)) (written (h_mem (fst w)) id idx x), snd w).
Proof.
  destruct w as [h att]. intros (K & M & D & v & E & Hv) L. cbn [fst snd] in *.
  split; [exact K|]. split; [intros i Hi; cbn; apply (written_mem k); assumption|]. split; [exact D|].
  exists v. split; [exact E|]. cbn [fst snd]. destruct (ls_values s) as [[a|id' sh]|]; destruct v as [[l vs]|]; cbn in *; auto.
  destruct Hv as (-> & Ll & X). split; [reflexivity|]. split; [lia|]. rewrite written_other by lia. exact X.
Qed.
Lemma lrel_new k (m : memory T) multi a b n h : dims a b n -> (k <= h_next h)%nat -> (forall i, (i < k)%nat -> h_mem h i = m i) ->
  lrel k m (mkLS multi a b n None) (h, latt a b n []).
Proof. intros D K M. split; [exact K|]. split; [exact M|]. split; [exact D|]. exists None. cbn. auto. Qed.
Lemma ls_set_rel k (m : memory T) s h v id : lrel k m s (h, latt (ls_smin s) (ls_smax s) (ls_orders s) (ltail (ls_multi s) v)) -> (id < k)%nat ->
  let r := ls_set_result (ls_multi s) h (ls_smin s) (ls_smax s) (ls_orders s) v id in
  lrel k m (fst (ls_set m s id)) (fst r) /\ same_outcome (snd r) (snd (ls_set m s id)).
Proof.
  intros R L. pose proof R as (K & M & D & _). cbn [fst snd] in K, M.
  unfold ls_set_result, ls_set, last_dim, adim, andim. cbv zeta. rewrite (M id L).
  change (zlen (ashape (nd_arr (m id))) - 1)%Z with (zlen (ashape (nd_arr (m id))) + -1)%Z.
  destruct (if ls_multi s then _ else _) as [sh|e]; cbn [bind]; [|cbn; split; [exact R|eauto]].
  destruct (areshape _ sh) as [x|e] eqn:Ex; cbn [bind]; [|cbn; split; [exact R|eauto]].
  destruct (nd_plain (m id)); cbn [fst snd]; split; try reflexivity.
  - split; [exact K|]. split; [exact M|]. split; [exact D|]. exists (Some (id, [sh])). cbn. auto.
  - split; [cbn; lia|]. split; [intros i Hi; cbn; rewrite put_other by (cbn; lia); cbn; rewrite put_other by lia; auto|]. split; [exact D|].
    exists (Some (S (h_next h), [])). cbn [fst snd ls_smin ls_smax ls_orders ls_multi ls_values]. split; [reflexivity|].
    cbn. split; [reflexivity|]. split; [lia|]. rewrite put_same. reflexivity.
Qed.
Lemma ls_set_ok junk k (m : memory T) s w id : lrel k m s w -> (id < k)%nat ->
  let r := run junk linear_program (lclass (ls_multi s)) "set_values" [ORef id []] [] w in
  lrel k m (fst (ls_set m s id)) (fst r) /\ same_outcome (snd r) (snd (ls_set m s id)).
Proof.
  destruct w as [h att]. intros R L. pose proof R as (K & M & D & v & E & Hv). cbn [fst snd] in E. subst att.
  rewrite ls_set_tree by assumption. apply ls_set_rel; assumption.
Qed.
Lemma ls_set_multi (m : memory T) s id : ls_multi (fst (ls_set m s id)) = ls_multi s.
Proof. unfold ls_set. destruct (bind _ _); reflexivity. Qed.
Lemma ls_make_ok junk multi k a b n v (h : heap T) : dims a b n -> (k <= h_next h)%nat -> (match v with Some l => (l < k)%nat | None => True end) ->
  let r := make junk linear_program (lclass multi) a b n v h in
  match ls_new (h_mem h) multi a b n v with
  | Ok s => snd r = Ok ONone /\ lrel k (h_mem h) s (fst r) /\ ls_multi s = multi
  | Err _ => exists e, snd r = Err e
  end.
Proof.
  intros D K L. unfold make. rewrite ls_new_tree by exact D. unfold ls_new.
  pose proof (lrel_new k (h_mem h) multi a b n h D K (fun i _ => eq_refl)) as R0.
  destruct v as [l|].
  - pose proof (ls_set_rel k (h_mem h) (mkLS multi a b n None) h None l R0 L) as [R1 R2]. cbn [ls_smin ls_smax ls_orders ls_multi] in *.
    pose proof (ls_set_multi (h_mem h) (mkLS multi a b n None) l) as Em.
    destruct (ls_set _ _ _) as [s r]. cbn [fst snd ls_multi] in *. destruct r; cbn [bind same_outcome] in *; auto.
  - cbn. auto.
Qed.
Lemma held_read k (m : memory T) h st v : (forall i, (i < k)%nat -> h_mem h i = m i) -> held k h st v ->
  match st, v with
  | None, None => True
  | Some st, Some (l, vs) => h_read h l vs = read_store m st
  | _, _ => False
  end.
Proof.
  intros M Hv. destruct st as [[a|id sh]|]; destruct v as [[l vs]|]; cbn in *; auto.
  - destruct Hv as (-> & _ & <-). apply h_read0.
  - destruct Hv as (-> & -> & L). rewrite h_read1, (M _ L). reflexivity.
Qed.
Lemma eval_linear_rows g (c : arr T) p r : eval_linear g c (P2 p) None None = Ok r -> exists a, fst r = VArr a.
Proof.
  cbn [eval_linear eval_spline]. unfold eval_rows.
  repeat (match goal with |- bind ?x _ = Ok _ -> _ => destruct x; cbn [bind]; [|discriminate] end).
  intros [= <-]. cbn. eauto.
Qed.
Lemma ls_result_ok k (m : memory T) s h v p : lrel k m s (h, latt (ls_smin s) (ls_smax s) (ls_orders s) (ltail (ls_multi s) v)) -> held k h (ls_values s) v ->
  let r := ls_interp_result (ls_multi s) h (ls_smin s) (ls_smax s) (ls_orders s) v p in
  same (seen r) (ls_interpolate m s p) /\ snd (fst r) = latt (ls_smin s) (ls_smax s) (ls_orders s) (ltail (ls_multi s) v) /\ grows h (fst (fst r)) /\
  match ls_interpolate m s p with
  | Ok y => r = ret_py (h, latt (ls_smin s) (ls_smax s) (ls_orders s) (ltail (ls_multi s) v)) y
  | Err _ => exists e, snd r = Err e
  end.
Proof.
  intros R Hv. pose proof R as (K & M & D & _). cbn [fst snd] in K, M.
  pose proof (held_read _ _ _ _ _ M Hv) as Hr.
  unfold ls_interp_result, ls_interpolate. rewrite (obj_grid_is _ _ _ D). cbn [bind]. cbv zeta.
  destruct (ls_values s) as [st|]; destruct v as [[l vs]|]; try contradiction; cbn [bind].
  2:{ cbn. split; [exact I|]. split; [reflexivity|]. split; [apply grows_refl|eauto]. }
  rewrite Hr. destruct (read_store m st) as [x|e]; cbn [bind]; [|cbn; split; [exact I|]; split; [reflexivity|]; split; [apply grows_refl|eauto]].
  destruct (eval_linear _ x p None None) as [r|e]; cbn [bind]; [|cbn; split; [exact I|]; split; [reflexivity|]; split; [apply grows_refl|eauto]].
  split; [rewrite seen_ret; reflexivity|].
  destruct (ret_grows (h, latt (ls_smin s) (ls_smax s) (ls_orders s) (ltail (ls_multi s) (Some (l, vs)))) (fst r)) as [G A]. auto.
Qed.
Lemma ls_interp_ok junk k (m : memory T) s w p : lrel k m s w ->
  let r := run junk linear_program (lclass (ls_multi s)) "interpolate" [pval p] [] w in
  same (seen r) (ls_interpolate m s p) /\ lrel k m s (fst r).
Proof.
  destruct w as [h att]. intros R. pose proof R as (K & M & D & v & E & Hv). cbn [fst snd] in E, Hv. subst att.
  rewrite ls_interp_tree by exact D. destruct (ls_result_ok k m s h v p R Hv) as (S1 & A1 & G1 & _).
  split; [exact S1|]. destruct (ls_interp_result _ _ _ _ _ _ _) as [[h' att'] r]. cbn [fst snd] in *. subst att'. apply (lrel_grows _ _ _ h); assumption.
Qed.
Lemma ls_interp_arr (m : memory T) s p y : ls_interpolate m s (P2 p) = Ok y -> exists a, y = VArr a.
Proof.
  unfold ls_interpolate.
  repeat (match goal with |- bind ?x _ = Ok _ -> _ => let E := fresh in destruct x eqn:E; cbn [bind]; [|discriminate] end).
  intros [= <-]. eapply eval_linear_rows; eassumption.
Qed.
Lemma ls_call_ok junk k (m : memory T) s w p : lrel k m s w -> rows p ->
  let r := run junk linear_program (lclass (ls_multi s)) "__call__" [pval p] [] w in
  same (seen r) (ls_call m s p) /\ lrel k m s (fst r).
Proof.
  destruct w as [h att]. intros R Hp. pose proof R as (K & M & D & v & E & Hv). cbn [fst snd] in E, Hv. subst att.
  destruct p as [x|q]; cbn [pval].
  - rewrite ls_call_point_tree by assumption. unfold ls_call.
    destruct (ls_result_ok k m s h v (P2 (mkArr [1; zlen x] (acell (atleast_2d x)))) R Hv) as (_ & A1 & G1 & F1).
    change (mkArr [1; zlen x] (acell (atleast_2d x))) with (atleast_2d x) in *.
    destruct (ls_interpolate m s (P2 (atleast_2d x))) as [y|e] eqn:Ey.
    + destruct (ls_interp_arr _ _ _ _ Ey) as [a ->]. rewrite F1. cbn [bind].
      set (w1 := (h, _)) in *. set (h1 := h_alloc h true a).
      assert (G2 : grows h h1) by apply grows_alloc.
      assert (X : nd_arr (h_mem h1 (h_next h)) = a) by (cbn; rewrite put_same; reflexivity).
      assert (Ew : ret_py w1 (VArr a) = ((h1, snd w1), Ok (ORef (h_next h) []))) by reflexivity. rewrite Ew.
      assert (R1 : lrel k m s (h, snd w1)) by exact R. clearbody w1. clear Ew F1 A1 G1 R. rename R1 into R.
      destruct (ls_multi s) eqn:Em; cbn [ravel_val' first_val fst ravel_val]; rewrite X.
      * destruct (areshape a _) as [u|e]; cbn [bind].
        -- split; [rewrite (seen_ret (h1, snd w1) (VArr u)); reflexivity|]. cbn [ret_py fst snd]. apply (lrel_grows _ _ _ h); [exact R|]. eapply grows_trans; [exact G2|apply grows_alloc].
        -- cbn. split; [exact I|]. apply (lrel_grows _ _ _ h); assumption.
      * destruct (first_row (VArr a)) as [u|e].
        -- split; [rewrite seen_ret; reflexivity|]. destruct (ret_grows (h1, snd w1) u) as [G3 A3].
           destruct (ret_py (h1, snd w1) u) as [[h' att'] r]. cbn [fst snd] in *. subst att'. apply (lrel_grows _ _ _ h); [exact R|]. eapply grows_trans; eassumption.
        -- cbn. split; [exact I|]. apply (lrel_grows _ _ _ h); assumption.
    + destruct F1 as [e' E']. cbn [bind].
      destruct (ls_interp_result _ _ _ _ _ _ _) as [[h' att'] rr]; cbn [fst snd] in *. subst rr att'.
      destruct (ls_multi s) eqn:Em; cbn; (split; [exact I|]; apply (lrel_grows _ _ _ h); assumption).
  - destruct Hp as (N & Dm & Hq). destruct q as [sh f]. cbn in Hq. subst sh. rewrite ls_call_rows_tree by assumption. unfold ls_call.
    destruct (ls_result_ok k m s h v (P2 (mkArr [N; Dm] f)) R Hv) as (S1 & A1 & G1 & _).
    split; [exact S1|]. destruct (ls_interp_result _ _ _ _ _ _ _) as [[h' att'] r]. cbn [fst snd] in *. subst att'. apply (lrel_grows _ _ _ h); assumption.
Qed.

(** [interpolate] of CubicSpline *)
Lemma cs_interp_ok junk k (m : memory T) s w p v : crel k m s w -> rows p -> match v with Some l => (l < k)%nat | None => True end ->
  let r := run junk cubic_program "CubicSpline" "interpolate" [pval p; vref v; OB false] [] w in
  let x := cs_interpolate junk s p (option_map (fun l => nd_arr (m l)) v) false in
  same (seen r) x /\
  crel k (match v, p, x with
          | Some l, P2 _, Ok (VArr o) => fun i => if Nat.eqb i l then mkNd (nd_plain (m l)) o else m i
          | _, _, _ => m
          end) s (fst r).
Proof.
  destruct w as [h att]. intros R Hp Hv. destruct (crel_parts _ _ _ _ _ R) as (c & tl & -> & D & Cr & _ & K & M & Hc).
  destruct p as [x|q]; cbn [pval].
  - rewrite cs_point_tree by assumption. cbv zeta.
    replace (match v with Some _ => m | None => m end) with m by (destruct v; reflexivity).
    unfold cs_point_result, cs_interpolate. rewrite (obj_grid_is _ _ _ D). cbn [bind finite_pts].
    destruct (forallb n_finite x); cbn [negb]; [|cbn; split; [exact I|exact R]].
    unfold cubic_at. destruct (cs_coeffs s) as [cx|]; [|subst c; cbn; split; [exact I|exact R]].
    destruct Hc as (l & -> & Ll & X). rewrite X. destruct (eval_cubic _ cx _ None None) as [y|e]; cbn [bind]; [|cbn; split; [exact I|exact R]].
    split; [rewrite seen_ret; reflexivity|].
    destruct (ret_grows (h, catt (cs_a s) (cs_b s) (cs_orders s) (ORef l []) tl) (fst y)) as [G3 A3].
    destruct (ret_py _ (fst y)) as [[h' att'] r]. cbn [fst snd] in *. subst att'. apply (crel_grows _ _ _ h); assumption.
  - destruct Hp as (N & Dm & Hq). destruct q as [sh f]. cbn in Hq. subst sh. rewrite cs_rows_tree by assumption. cbv zeta.
    destruct (cs_rows_ok junk k m s h c tl N Dm f v R Hv) as (S1 & A1 & F1). split; [exact S1|].
    destruct (cs_rows_result _ _ _ _ _ _ _ _ _ _ _) as [[h' att'] r]. cbn [fst snd] in *. subst att'.
    destruct v as [l|]; cbn [option_map] in *.
    + destruct F1 as (N1 & O1 & V1).
      apply (crel_mem k m s h); auto.
      * intros i Hi. apply O1. lia.
      * intros i Hi. destruct (Nat.eqb_spec i l) as [->|Ne].
        -- rewrite V1. destruct (cs_interpolate _ _ _ _ _) as [[| | |o]|]; try (destruct (m l); reflexivity). rewrite Nat.eqb_refl. reflexivity.
        -- rewrite O1 by exact Ne. rewrite (M i Hi). destruct (cs_interpolate _ _ _ _ _) as [[| | |o]|]; try reflexivity.
           destruct (Nat.eqb_spec i l); [contradiction|reflexivity].
    + destruct F1 as [G1 _]. apply (crel_grows _ _ _ h); assumption.
Qed.

(** ** Histories *)
Lemma history_ok {S} (Rel : memory T -> S -> state T -> Prop) (set : memory T -> S -> nat -> S * res unit) junk P c k :
  (forall m s w i, Rel m s w -> (i < k)%nat -> h_mem (fst w) i = m i) ->
  (forall m s w id, Rel m s w -> (id < k)%nat -> let r := run junk P c "set_values" [ORef id []] [] w in
     Rel m (fst (set m s id)) (fst r) /\ same_outcome (snd r) (snd (set m s id))) ->
  (forall m s w id idx x, Rel m s w -> (id < k)%nat -> Rel (written m id idx x) s (mkHeap (h_next (fst w)) (written (h_mem (fst w)) id idx x), snd w)) ->
  (forall m s w p, Rel m s w -> rows p -> Rel m s (fst (run junk P c "__call__" [pval p] [] w))) ->
  forall hist m s w last, Forall (deed_ok k) hist -> Rel m s w ->
    exists s', after set (events hist) s m last = (s', writes hist m, snd (history junk P c hist w last)) /\
      Rel (writes hist m) s' (fst (history junk P c hist w last)).
Proof.
  intros HM HS HW HC. induction hist as [|e hist IH]; intros m s w last F R.
  - exists s. split; [reflexivity|exact R].
  - inversion F as [|? ? Fe Fh]; subst. destruct e as [id|id idx x|p]; cbn [deed_ok events history writes after] in *.
    + destruct (HS m s w id R Fe) as [R1 O1]. cbv zeta. destruct (set m s id) as [s1 r1]. cbn [fst snd] in *.
      rewrite (HM m s w id R Fe).
      destruct r1; cbn [same_outcome] in O1; [rewrite O1|destruct O1 as [e' ->]]; apply IH; assumption.
    + apply IH; [exact Fh|]. apply HW; assumption.
    + apply IH; [exact Fh|]. apply HC; assumption.
Qed.
Lemma cs_history_ok junk k hist m s w last : Forall (deed_ok k) hist -> crel k m s w ->
  exists s', after cs_step (events hist) s m last = (s', writes hist m, snd (history junk cubic_program "CubicSpline" hist w last)) /\
    crel k (writes hist m) s' (fst (history junk cubic_program "CubicSpline" hist w last)).
Proof.
  intros F R. refine (history_ok (crel k) cs_step junk cubic_program "CubicSpline" k _ _ _ _ hist m s w last F R).
  - intros m0 s0 w0 i (_ & M & _) Hi. exact (M i Hi).
  - intros m0 s0 w0 id R0 Hi. exact (cs_set_ok junk k m0 s0 w0 id R0 Hi).
  - intros m0 s0 w0 id idx x R0 Hi. exact (crel_write k m0 s0 w0 id idx x R0 Hi).
  - intros m0 s0 w0 p R0 Hp. exact (proj2 (cs_call_ok junk k m0 s0 w0 p R0 Hp)).
Qed.
Lemma mcs_history_ok junk nan k hist m s w last : Forall (deed_ok k) hist -> mrel k m s w ->
  exists s', after (mcs_step nan) (events hist) s m last = (s', writes hist m, snd (history junk cubic_program "CubicSplines" hist w last)) /\
    mrel k (writes hist m) s' (fst (history junk cubic_program "CubicSplines" hist w last)).
Proof.
  intros F R. refine (history_ok (mrel k) (mcs_step nan) junk cubic_program "CubicSplines" k _ _ _ _ hist m s w last F R).
  - intros m0 s0 w0 i (_ & M & _) Hi. exact (M i Hi).
  - intros m0 s0 w0 id R0 Hi. exact (mcs_set_ok junk nan k m0 s0 w0 id R0 Hi).
  - intros m0 s0 w0 id idx x R0 Hi. exact (mrel_write k m0 s0 w0 id idx x R0 Hi).
  - intros m0 s0 w0 p R0 Hp. exact (proj2 (mcs_call_ok junk k m0 s0 w0 p R0 Hp)).
Qed.
Lemma ls_history_ok junk multi k hist m s w last : Forall (deed_ok k) hist -> lrel k m s w -> ls_multi s = multi ->
  exists s', after ls_set (events hist) s m last = (s', writes hist m, snd (history junk linear_program (lclass multi) hist w last)) /\
    lrel k (writes hist m) s' (fst (history junk linear_program (lclass multi) hist w last)) /\ ls_multi s' = multi.
Proof.
  intros F R Em. refine (history_ok (fun m s w => lrel k m s w /\ ls_multi s = multi) ls_set junk linear_program (lclass multi) k _ _ _ _ hist m s w last F (conj R Em)).
  - intros m0 s0 w0 i ((_ & M & _) & _) Hi. exact (M i Hi).
  - intros m0 s0 w0 id [R0 <-] Hi. destruct (ls_set_ok junk k m0 s0 w0 id R0 Hi) as [A B]. exact (conj (conj A (ls_set_multi m0 s0 id)) B).
  - intros m0 s0 w0 id idx x [R0 E0] Hi. exact (conj (lrel_write k m0 s0 w0 id idx x R0 Hi) E0).
  - intros m0 s0 w0 p [R0 <-] Hp. exact (conj (proj2 (ls_call_ok junk k m0 s0 w0 p R0 Hp)) eq_refl).
Qed.
End Any.
