(** The states of the objects of the texts and those of ObjectModel.v. *)
From Coq Require Import ZArith List Bool String Lia.
From Verif Require Import Base SplineModel PrefilterModel ArrayModel CartesianModel GradModel ObjectModel SpecObject PySyntax ObSem SpecObText ObText ObTextA ObTextB ObTextC ObTextD.
Import ListNotations.
Open Scope Z_scope.
Open Scope string_scope.
Section Any.
Context {T : Type} {NT : Num T}.

(** ** Heaps *)
Definition grows (h h' : heap T) : Prop := (h_next h <= h_next h')%nat /\ forall i, (i < h_next h)%nat -> h_mem h' i = h_mem h i.
Lemma grows_refl h : grows h h. Proof. split; auto. Qed.
Lemma grows_trans h1 h2 h3 : grows h1 h2 -> grows h2 h3 -> grows h1 h3.
Proof. intros [A1 B1] [A2 B2]. split; [lia|]. intros i Hi. rewrite B2 by lia. apply B1; assumption. Qed.
Lemma grows_alloc h p x : grows h (h_alloc h p x).
Proof. split; cbn; [lia|]. intros i Hi. apply put_other. lia. Qed.
Lemma grows_store h h' l x : grows h h' -> (h_next h <= l)%nat -> grows h (h_store h' l x).
Proof. intros [A B] L. split; [exact A|]. intros i Hi. cbn. rewrite put_other by lia. apply B. exact Hi. Qed.
Lemma read_same (h h' : heap T) l vs : h_mem h' l = h_mem h l -> h_read h' l vs = h_read h l vs.
Proof. intros E. unfold h_read. rewrite E. reflexivity. Qed.

(** ** CubicSpline *)
Lemma crel_grows k (m : memory T) s h h' att : crel k m s (h, att) -> grows h h' -> crel k m s (h', att).
Proof.
  intros (K & M & D & c & tl & E & Hc & Ht) [G1 G2]. cbn [fst snd] in *.
  split; [cbn; lia|]. split; [intros i Hi; cbn; rewrite G2 by lia; apply M; exact Hi|]. split; [exact D|].
  exists c, tl. split; [exact E|]. cbn [fst snd]. split.
  - destruct (cs_coeffs s); [|exact Hc]. destruct Hc as (l & -> & L & X). exists l. split; [reflexivity|]. split; [lia|]. rewrite G2 by lia. exact X.
  - destruct (cs_values s); [|exact Ht]. destruct Ht as (l & vs & -> & L & X). exists l, vs. split; [reflexivity|]. split; [lia|].
    rewrite <- X. apply read_same. apply G2. lia.
Qed.
Lemma crel_mem k (m : memory T) s h att h' m' : crel k m s (h, att) -> h_next h' = h_next h -> (forall i, (k <= i)%nat -> h_mem h' i = h_mem h i) ->
  (forall i, (i < k)%nat -> h_mem h' i = m' i) -> crel k m' s (h', att).
Proof.
  intros (K & M & D & c & tl & E & Hc & Ht) N G M'. cbn [fst snd] in *.
  split; [cbn; lia|]. split; [exact M'|]. split; [exact D|].
  exists c, tl. split; [exact E|]. cbn [fst snd]. split.
  - destruct (cs_coeffs s); [|exact Hc]. destruct Hc as (l & -> & L & X). exists l. split; [reflexivity|]. split; [lia|]. rewrite G by lia. exact X.
  - destruct (cs_values s); [|exact Ht]. destruct Ht as (l & vs & -> & L & X). exists l, vs. split; [reflexivity|]. split; [lia|].
    rewrite <- X. apply read_same. apply G. lia.
Qed.
Lemma written_mem k (m m0 : memory T) id idx x i : (forall i, (i < k)%nat -> m0 i = m i) -> (i < k)%nat -> written m0 id idx x i = written m id idx x i.
Proof. intros H L. unfold written. destruct (Nat.eqb_spec i id); rewrite H by assumption; reflexivity. Qed.
Lemma written_other (m : memory T) id idx x i : i <> id -> written m id idx x i = m i.
Proof. intros N. unfold written. destruct (Nat.eqb_spec i id); congruence. Qed.
Lemma crel_write k (m : memory T) s w id idx x : crel k m s w -> (id < k)%nat ->
  crel k (written m id idx x) s (mkHeap (h_next (fst w)) (written (h_mem (fst w)) id idx x), snd w).
Proof.
  destruct w as [h att]. intros R L. apply (crel_mem k m s h); auto; cbn.
  - intros i Hi. apply written_other. lia.
  - intros i Hi. apply (written_mem k); [|exact Hi]. apply R.
Qed.
Lemma crel_parts k (m : memory T) s h att : crel k m s (h, att) -> exists c tl, att = catt (cs_a s) (cs_b s) (cs_orders s) c tl /\
  dims (cs_a s) (cs_b s) (cs_orders s) /\ coef_ref c /\ tail_ok tl /\ (k <= h_next h)%nat /\ (forall i, (i < k)%nat -> h_mem h i = m i) /\
  match cs_coeffs s with None => c = ONone | Some x => exists l, c = ORef l [] /\ (k <= l < h_next h)%nat /\ nd_arr (h_mem h l) = x end.
Proof.
  intros (K & M & D & c & tl & E & Hc & Ht). cbn [fst snd] in *. exists c, tl.
  repeat split; auto; try apply D.
  - destruct (cs_coeffs s); [right|left; exact Hc]. destruct Hc as (l & -> & _). eauto.
  - destruct (cs_values s); [right|left; exact Ht]. destruct Ht as (l & vs & -> & _). eauto.
Qed.
Lemma crel_new k (m : memory T) a b n h : dims a b n -> (k <= h_next h)%nat -> (forall i, (i < k)%nat -> h_mem h i = m i) ->
  crel k m (mkCS a b n None None) (h, catt a b n ONone []).
Proof. intros D K M. split; [exact K|]. split; [exact M|]. split; [exact D|]. exists ONone, []. cbn. auto. Qed.

Definition same_outcome (r : res (ov T)) (x : res unit) : Prop := match x with Ok _ => r = Ok ONone | Err _ => exists e, r = Err e end.
Lemma cs_set_rel k (m : memory T) s h c tl id : crel k m s (h, catt (cs_a s) (cs_b s) (cs_orders s) c tl) -> (id < k)%nat ->
  let r := cs_set_result h (cs_a s) (cs_b s) (cs_orders s) c tl id in
  crel k m (fst (cs_step m s id)) (fst r) /\ same_outcome (snd r) (snd (cs_step m s id)).
Proof.
  intros R L. unfold cs_set_result, cs_step, cs_set.
  destruct (crel_parts _ _ _ _ _ R) as (c' & tl' & E & D & _ & _ & K & M & _).
  rewrite (M id L). destruct (all_finite _); cbn [negb].
  2:{ cbn. split; [|eauto]. apply (crel_grows _ _ _ h); [exact R|apply grows_alloc]. }
  destruct (areshape _ _) as [v|e] eqn:Ev.
  2:{ cbn. split; [|eauto]. apply (crel_grows _ _ _ h); [exact R|apply grows_alloc]. }
  assert (R' : crel k m (mkCS (cs_a s) (cs_b s) (cs_orders s) (Some v) (cs_coeffs s))
                 (h_alloc h true (nd_arr (m id)), catt (cs_a s) (cs_b s) (cs_orders s) c [("__values__", ORef (h_next h) [cs_orders s])])).
  { destruct R as (_ & _ & _ & c1 & tl1 & E1 & Hc & _). cbn [fst snd] in *.
    assert (c1 = c) by (unfold catt in E1; cbn in E1; congruence). subst c1.
    split; [cbn; lia|]. split; [intros i Hi; cbn; rewrite put_other by lia; auto|]. split; [exact D|].
    exists c, [("__values__", ORef (h_next h) [cs_orders s])]. cbn [fst snd cs_a cs_b cs_orders cs_coeffs cs_values]. split; [reflexivity|]. split.
    - destruct (cs_coeffs s); [|exact Hc]. destruct Hc as (l & -> & Ll & X). exists l. split; [reflexivity|]. split; [cbn; lia|]. cbn. rewrite put_other by lia. exact X.
    - exists (h_next h), [cs_orders s]. split; [reflexivity|]. split; [cbn; lia|]. rewrite h_read1. cbn. rewrite put_same. exact Ev. }
  cbn [cs_a cs_b cs_orders cs_coeffs].
  destruct (filter_coeffs _ _ _ v) as [[z|]|e] eqn:Ef.
  - cbn [fst snd]. split; [|reflexivity].
    destruct R' as (K1 & M1 & _ & c1 & tl1 & E1 & _ & Ht). cbn [fst snd cs_a cs_b cs_orders cs_coeffs cs_values] in *.
    split; [cbn; lia|]. split; [intros i Hi; cbn; rewrite put_other by (cbn; lia); apply M1; exact Hi|]. split; [exact D|].
    eexists _, _. cbn [fst snd cs_a cs_b cs_orders cs_coeffs cs_values]. split; [reflexivity|]. split.
    + exists (S (h_next h)). split; [reflexivity|]. split; [cbn; lia|]. cbn. rewrite put_same. reflexivity.
    + exists (h_next h), [cs_orders s]. split; [reflexivity|]. split; [cbn; lia|]. rewrite h_read1. cbn. rewrite put_other by (cbn; lia). cbn. rewrite put_same. exact Ev.
  - exfalso. exact (filter_coeffs_some _ _ _ _ D Ef).
  - cbn [fst snd]. split; [exact R'|cbn; eauto].
Qed.
Lemma cs_set_ok junk k (m : memory T) s w id : crel k m s w -> (id < k)%nat ->
  let r := run junk cubic_program "CubicSpline" "set_values" [ORef id []] [] w in
  crel k m (fst (cs_step m s id)) (fst r) /\ same_outcome (snd r) (snd (cs_step m s id)).
Proof.
  destruct w as [h att]. intros R L. destruct (crel_parts _ _ _ _ _ R) as (c & tl & -> & D & _ & Tl & _).
  rewrite cs_set_tree by assumption. apply cs_set_rel; assumption.
Qed.
Lemma cs_make_ok junk k a b n v (h : heap T) : dims a b n -> (k <= h_next h)%nat -> (match v with Some l => (l < k)%nat | None => True end) ->
  let r := make junk cubic_program "CubicSpline" a b n v h in
  match cs_new a b n (option_map (fun l => nd_arr (h_mem h l)) v) with
  | Ok s => snd r = Ok ONone /\ crel k (h_mem h) s (fst r)
  | Err _ => exists e, snd r = Err e
  end.
Proof.
  intros D K L. unfold make. rewrite cs_new_tree by exact D. unfold cs_new.
  assert (Zb : zlen b = zlen a) by (unfold zlen; destruct D as (_ & -> & _); reflexivity).
  assert (Zn : zlen n = zlen a) by (unfold zlen; destruct D as (_ & _ & ->); reflexivity).
  rewrite Zb, Zn, Z.eqb_refl. cbn [negb orb].
  pose proof (crel_new k (h_mem h) a b n h D K (fun i _ => eq_refl)) as R0.
  destruct v as [l|]; cbn [option_map].
  - pose proof (cs_set_rel k (h_mem h) (mkCS a b n None None) h ONone [] l R0 L) as [R1 R2]. cbn [cs_a cs_b cs_orders] in *. unfold cs_step in *.
    destruct (cs_set _ _) as [s r]. cbn [fst snd] in *. destruct r; cbn [bind same_outcome] in *; auto.
  - cbn. auto.
Qed.
Lemma same_refl {A} (r : res A) : same r r. Proof. destruct r; cbn; auto. Qed.
Lemma same_err {A} e e' : @same A (Err e) (Err e'). Proof. exact I. Qed.
Lemma floats_of (l : list T) : floats (map OF l) = Some l.
Proof. induction l as [|x l IH]; cbn; [reflexivity|]. rewrite IH. reflexivity. Qed.
Lemma seen_ret w (v : pyval T) : seen (ret_py w v) = Ok v.
Proof.
  destruct v as [|x|l|a]; unfold seen; cbn [ret_py fst snd]; try reflexivity.
  - rewrite floats_of. reflexivity.
  - rewrite h_read0. cbn. rewrite put_same. reflexivity.
Qed.
Lemma ret_grows (w : state T) v : grows (fst w) (fst (fst (ret_py w v))) /\ snd (fst (ret_py w v)) = snd w.
Proof. destruct v; cbn; split; auto using grows_refl, grows_alloc. Qed.

Lemma cs_rows_ok junk k (m : memory T) s h c tl N D f v : crel k m s (h, catt (cs_a s) (cs_b s) (cs_orders s) c tl) ->
  match v with Some l => (l < k)%nat | None => True end ->
  let r := cs_rows_result junk h (cs_a s) (cs_b s) (cs_orders s) c tl N D f v in
  let x := cs_interpolate junk s (P2 (mkArr [N; D] f)) (option_map (fun l => nd_arr (m l)) v) false in
  same (seen r) x /\ snd (fst r) = catt (cs_a s) (cs_b s) (cs_orders s) c tl /\
  match v with
  | None => grows h (fst (fst r)) /\ match x with Ok (VArr a) => exists l, snd r = Ok (ORef l []) /\ nd_arr (h_mem (fst (fst r)) l) = a | Ok _ => False | Err _ => exists e, snd r = Err e end
  | Some l => h_next (fst (fst r)) = h_next h /\ (forall i, i <> l -> h_mem (fst (fst r)) i = h_mem h i) /\
      h_mem (fst (fst r)) l = mkNd (nd_plain (m l)) (match x with Ok (VArr a) => a | _ => nd_arr (m l) end)
  end.
Proof.
  intros R L. destruct (crel_parts _ _ _ _ _ R) as (c' & tl' & E & Dd & _ & _ & K & M & Hc).
  assert (c' = c) by (unfold catt in E; cbn in E; congruence). subst c'. clear tl' E.
  unfold cs_rows_result, cs_interpolate. rewrite (obj_grid_is _ _ _ Dd). cbn [bind finite_pts ashape].
  assert (Hn : forall l : nat, (l < k)%nat -> h_mem h l = mkNd (nd_plain (m l)) (nd_arr (m l))) by (intros l Hl; rewrite (M l Hl); destruct (m l); reflexivity).
  destruct (all_finite _); cbn [negb].
  2:{ cbn. split; [exact I|]. split; [reflexivity|]. destruct v; [auto|]. split; [apply grows_refl|eauto]. }
  destruct (D =? zlen (cs_a s))%Z eqn:ED; cbn [negb].
  2:{ cbn. split; [exact I|]. split; [reflexivity|]. destruct v; [auto|]. split; [apply grows_refl|eauto]. }
  set (h1 := match v with None => h_alloc h true (mkArr [N] junk) | Some _ => h end).
  set (lo := match v with None => h_next h | Some lo => lo end).
  assert (Vo : nd_arr (h_mem h1 lo) = match option_map (fun l => nd_arr (m l)) v with Some v => v | None => mkArr [N] junk end).
  { subst h1 lo. destruct v; cbn; [rewrite (M _ L); reflexivity|]. rewrite put_same. reflexivity. }
  rewrite Vo. clear Vo.
  set (o := match option_map _ v with Some v => v | None => _ end).
  assert (G1 : match v with None => grows h h1 | Some _ => h1 = h end) by (subst h1; destruct v; [reflexivity|apply grows_alloc]).
  unfold cubic_at.
  assert (Ce : match cs_coeffs s with None => c = ONone | Some x => exists l, c = ORef l [] /\ nd_arr (h_mem h1 l) = x end).
  { destruct (cs_coeffs s); [|exact Hc]. destruct Hc as (l & -> & Ll & X). exists l. split; [reflexivity|].
    destruct v; [rewrite G1; exact X|]. destruct G1 as [_ G1]. rewrite G1 by lia. exact X. }
  destruct (cs_coeffs s) as [cx|].
  2:{ subst c. cbn. split; [exact I|]. split; [reflexivity|]. destruct v; [rewrite G1; auto|]. split; [exact G1|eauto]. }
  destruct Ce as (l & -> & X). rewrite X.
  destruct (eval_cubic _ cx _ _ None) as [[r1 [o'|]]|e]; cbn [bind fst snd].
  - split; [unfold seen; cbn [fst snd]; rewrite h_read0; cbn; rewrite put_same; reflexivity|]. split; [reflexivity|].
    destruct v as [lv|].
    + rewrite G1. subst lo. cbn. split; [reflexivity|]. split; [intros i Hi; apply put_other; exact Hi|]. rewrite put_same, <- (M lv L). reflexivity.
    + split; [apply grows_store; [exact G1|subst lo; lia]|]. exists lo. split; [reflexivity|]. cbn. rewrite put_same. reflexivity.
  - cbn. split; [exact I|]. split; [reflexivity|]. destruct v; [rewrite G1; auto|]. split; [exact G1|eauto].
  - cbn. split; [exact I|]. split; [reflexivity|]. destruct v; [rewrite G1; auto|]. split; [exact G1|eauto].
Qed.
Lemma cs_first junk (s : cubic T) p v a : cs_interpolate junk s (P2 p) v false = Ok a -> exists x, a = VArr x.
Proof.
  unfold cs_interpolate. repeat (match goal with |- context [bind ?x _] => destruct x; cbn [bind]; [|discriminate] end).
  destruct (negb _); [discriminate|]. destruct (ashape p) as [|N [|D [|]]]; try discriminate. destruct (negb _); [discriminate|].
  destruct (cs_coeffs s); [|discriminate]. destruct (eval_cubic _ _ _ _ _) as [[? [o|]]|]; cbn; try discriminate. intros [= <-]. eauto.
Qed.
Lemma cs_call_ok junk k (m : memory T) s w p : crel k m s w -> rows p ->
  let r := run junk cubic_program "CubicSpline" "__call__" [pval p] [] w in
  same (seen r) (cs_call junk s p) /\ crel k m s (fst r).
Proof.
  destruct w as [h att]. intros R Hp. destruct (crel_parts _ _ _ _ _ R) as (c & tl & -> & D & Cr & _ & K & _ & _).
  destruct p as [x|q]; cbn [pval].
  - rewrite cs_call_point_tree by assumption. unfold cs_call.
    destruct (cs_rows_ok junk k m s h c tl 1 (zlen x) (acell (atleast_2d x)) None R I) as (S1 & A1 & G1 & F1).
    cbn [option_map] in *. change (mkArr [1; zlen x] (acell (atleast_2d x))) with (atleast_2d x) in *.
    set (r := cs_rows_result _ _ _ _ _ _ _ _ _ _ _) in *.
    destruct (cs_interpolate junk s (P2 (atleast_2d x)) None false) as [y|e] eqn:Ey.
    + destruct (cs_first _ _ _ _ _ Ey) as [a ->]. destruct F1 as (l & El & Xl).
      destruct r as [[h' att'] rr]. cbn [fst snd] in *. subst rr att'. cbn [first_of bind fst]. rewrite Xl.
      destruct (first_row (VArr a)) as [v|e].
      * split; [rewrite seen_ret; reflexivity|]. destruct (ret_grows (h', catt (cs_a s) (cs_b s) (cs_orders s) c tl) v) as [G2 A2].
        destruct (ret_py _ v) as [[h2 att2] r2]. cbn [fst snd] in *. subst att2. apply (crel_grows _ _ _ h); [exact R|]. eapply grows_trans; eauto.
      * cbn. split; [exact I|]. apply (crel_grows _ _ _ h); assumption.
    + destruct F1 as [e' E']. destruct r as [[h' att'] rr]; cbn [fst snd] in *. subst rr att'. cbn. split; [exact I|]. apply (crel_grows _ _ _ h); assumption.
  - destruct Hp as (N & Dm & Hq). destruct q as [sh f]. cbn in Hq. subst sh. rewrite cs_call_rows_tree by assumption. unfold cs_call.
    destruct (cs_rows_ok junk k m s h c tl N Dm f None R I) as (S1 & A1 & G1 & _). cbn [option_map] in S1. split; [exact S1|].
    destruct (cs_rows_result _ _ _ _ _ _ _ _ _ _ _) as [[h' att'] rr]. cbn [fst snd] in *. subst att'. apply (crel_grows _ _ _ h); assumption.
Qed.
End Any.
