(** Which values the spline objects accept (C60). *)
From Coq Require Import ZArith List Bool Reals QArith Lia.
From Verif Require Import Base BaseFacts SplineModel Spec SpecBasis SpecGrad ArrayModel ArrayFacts ObjectModel SpecObject ObjectProps ObjectR ObjectMore ObjectGrid.
Import ListNotations.
Open Scope Z_scope.

Lemma areshape_iff {T} (V : arr T) sh : (exists W, areshape V sh = Ok W) <-> entries (ashape V) = entries sh.
Proof.
  unfold areshape. change zprod with entries. destruct (Z.eqb_spec (entries (ashape V)) (entries sh)) as [E|E].
  - split; eauto.
  - split; [intros [W H]; discriminate|congruence].
Qed.

Theorem cubic_accepts g (V : arr R) : valid_grid (unif_grid g) -> (1 <= length g <= 4)%nat ->
  ((exists s, cs_new (lower g) (upper g) (counts g) (Some V) = Ok s) <-> entries (ashape V) = entries (counts g)).
Proof.
  intros Hv Hd. split.
  - intros [s H]. apply areshape_iff. unfold cs_new in H. destruct (_ || _); [discriminate|]. unfold cs_set in H. cbn [cs_orders] in H.
    destruct (negb (all_finite V)); [discriminate|]. destruct (areshape V (counts g)) as [W|]; [eauto|discriminate].
  - intros H. destruct (cubic_object_nodes g V Hv Hd H) as (s & E & _). eauto.
Qed.

Lemma adim_last_app {T} (V : arr T) sh ns : ashape V = sh ++ [ns] -> adim V (andim V - 1) = Ok ns.
Proof.
  intros H. unfold adim, andim. rewrite H, zlen_app. replace (zlen sh + zlen [ns] - 1) with (zlen sh) by (unfold zlen; cbn; lia).
  rewrite (lget_ok _ _ 0) by (rewrite zlen_app; unfold zlen; cbn; lia).
  unfold zlen. rewrite Nat2Z.id, nth_middle. reflexivity.
Qed.

Theorem cubics_accepts nan g sh ns (V : arr R) : valid_grid (unif_grid g) -> (1 <= length g <= 4)%nat -> ashape V = sh ++ [ns] -> 0 <= ns ->
  ((exists s, mcs_new nan (lower g) (upper g) (counts g) (Some V) = Ok s) <-> entries (ashape V) = entries (counts g ++ [ns])).
Proof.
  intros Hv Hd HV Hn. split.
  - intros [s H]. apply areshape_iff. unfold mcs_new in H. destruct (_ || _); [discriminate|]. unfold mcs_set in H. cbn [mcs_orders] in H.
    rewrite (adim_last_app V sh ns HV) in H. cbn [bind] in H. destruct (areshape V _) as [W|]; [eauto|discriminate].
  - intros H. destruct (cubics_object_nodes nan g sh ns V Hv Hd HV Hn H) as (s & E & _). eauto.
Qed.

Theorem linear_accepts {T} {NT : Num T} (m : memory T) (multi : bool) smin smax orders sh ns id : let V := nd_arr (m id) in
  ashape V = (if multi then sh ++ [ns] else ashape V) ->
  ((exists s, ls_new m multi smin smax orders (Some id) = Ok s) <-> entries (ashape V) = entries (orders ++ ls_comps multi ns)).
Proof.
  intros V HV. rewrite <- areshape_iff. unfold ls_new, ls_set. cbn [ls_multi ls_orders]. fold V. destruct multi.
  - rewrite (adim_last_app V sh ns HV). cbn [bind ls_comps]. destruct (areshape V (orders ++ [ns])) as [W|]; cbn; split; intros [? H]; eauto; discriminate.
  - cbn [bind ls_comps]. rewrite app_nil_r. destruct (areshape V orders) as [W|]; cbn; split; intros [? H]; eauto; discriminate.
Qed.

(** Non-finite values (any arithmetic). *)
Lemma in_all_idx sh : forall idx, inb sh idx = true <-> In idx (all_idx sh).
Proof.
  induction sh as [|n sh IH]; intros [|i idx]; cbn [inb all_idx].
  - split; auto. now left.
  - split; [discriminate|]. intros [E|[]]; discriminate.
  - split; [discriminate|]. rewrite in_flat_map. intros (j & _ & Hj). apply in_map_iff in Hj as (? & E & _). discriminate.
  - rewrite !andb_true_iff, Z.leb_le, Z.ltb_lt, IH, in_flat_map. split.
    + intros [Hi Hx]. exists i. split; [now apply zrange_In|now apply in_map].
    + intros (j & Hj & Hx). apply in_map_iff in Hx as (y & E & Hy). injection E as -> ->. apply zrange_In in Hj. split; auto; lia.
Qed.
Lemma not_finite {T} {NT : Num T} (V : arr T) idx : inb (ashape V) idx = true -> n_finite (acell V idx) = false -> all_finite V = false.
Proof.
  intros Hi Hf. unfold all_finite. destruct (forallb _ _) eqn:E; auto. rewrite forallb_forall in E. apply in_all_idx in Hi. rewrite (E _ Hi) in Hf. discriminate.
Qed.
Theorem cubic_rejects_nonfinite {T} {NT : Num T} a b orders (V : arr T) idx :
  inb (ashape V) idx = true -> n_finite (acell V idx) = false -> forall s, cs_new a b orders (Some V) <> Ok s.
Proof.
  intros Hi Hf s. unfold cs_new. destruct (_ || _); [discriminate|]. unfold cs_set. rewrite (not_finite V idx Hi Hf). discriminate.
Qed.
