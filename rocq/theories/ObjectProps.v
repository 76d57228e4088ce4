(** Proofs about ObjectModel.v: histories (C47). *)
From Coq Require Import ZArith List Bool Lia.
From Verif Require Import Base BaseFacts SplineModel PrefilterModel ArrayModel GradModel SmolyakModel ObjectModel SpecObject.
Import ListNotations.
Open Scope Z_scope.

Lemma after_inv {T S} (set : memory T -> S -> nat -> S * res unit) (I : S -> memory T -> option (nat * arr T) -> Prop) h :
  (forall s m last id, I s m last ->
     I (fst (set m s id)) m (match snd (set m s id) with Ok _ => Some (id, nd_arr (m id)) | Err _ => last end)) ->
  (forall s m last id idx x, In (Write id idx x) h -> I s m last -> I s (written m id idx x) last) ->
  forall s m last s' m' last', I s m last -> after set h s m last = (s', m', last') -> I s' m' last'.
Proof.
  intros Hs. induction h as [|[id|id idx x] h IH]; cbn [after]; intros Hw s m last s' m' last' HI E.
  - now inversion E; subst.
  - specialize (Hs s m last id HI). destruct (set m s id) as [s1 r]. cbn [fst snd] in Hs. refine (IH _ _ _ _ _ _ _ Hs E). intros; apply Hw; cbn; auto.
  - refine (IH _ _ _ _ _ _ _ (Hw _ _ _ _ _ _ (or_introl eq_refl) HI) E). intros; apply Hw; cbn; auto.
Qed.

Section Any.
Context {T : Type} {NT : Num T}.

(** ** CubicSpline *)

Definition cs_same (s s1 : cubic T) : Prop := cs_a s = cs_a s1 /\ cs_b s = cs_b s1 /\ cs_orders s = cs_orders s1 /\ cs_coeffs s = cs_coeffs s1.
Lemma cs_same_eval s s1 : cs_same s s1 -> forall junk p,
  (forall v wd, cs_interpolate junk s p v wd = cs_interpolate junk s1 p v wd) /\ cs_call junk s p = cs_call junk s1 p.
Proof.
  intros (E1 & E2 & E3 & E4) junk.
  assert (H : forall p v wd, cs_interpolate junk s p v wd = cs_interpolate junk s1 p v wd).
  { intros. unfold cs_interpolate. rewrite E1, E2, E3, E4. reflexivity. }
  intros p. split; auto. unfold cs_call. destruct p; now rewrite H.
Qed.

Theorem cubic_history a b orders m h s0 s m' last :
  cs_new a b orders None = Ok s0 -> after cs_step h s0 m None = (s, m', last) ->
  exists s1, cs_new a b orders (option_map snd last) = Ok s1 /\ forall junk p,
    (forall v wd, cs_interpolate junk s p v wd = cs_interpolate junk s1 p v wd) /\ cs_call junk s p = cs_call junk s1 p.
Proof.
  intros H0 Ha.
  assert (I : exists s1, cs_new a b orders (option_map snd last) = Ok s1 /\ cs_same s s1).
  { revert Ha. apply (after_inv cs_step (fun s m last => exists s1, cs_new a b orders (option_map snd last) = Ok s1 /\ cs_same s s1)).
    - clear -H0. intros s m last id (s1 & E & HS). unfold cs_step.
      destruct (snd (cs_set s (nd_arr (m id)))) as [[]|e] eqn:Er.
      + unfold cs_new in *. destruct (_ || _); [discriminate|]. cbn [option_map snd] in *.
        destruct HS as (E1 & E2 & E3 & E4).
        assert (E' : cs_a s1 = a /\ cs_b s1 = b /\ cs_orders s1 = orders).
        { destruct (option_map snd last) as [v|]; [|inversion E; auto]. revert E. unfold cs_set. cbn [cs_a cs_b cs_orders].
          destruct (negb _); [discriminate|]. destruct (areshape _ _); [|discriminate]. destruct (filter_coeffs _ _ _ _); [|discriminate].
          cbn. intros E. inversion E; auto. }
        destruct E' as (F1 & F2 & F3). rewrite F1 in E1. rewrite F2 in E2. rewrite F3 in E3. clear E E4 H0.
        revert Er. unfold cs_set. cbn [cs_a cs_b cs_orders]. rewrite E1, E2, E3.
        destruct (negb _); [discriminate|]. destruct (areshape _ _); [|discriminate]. destruct (filter_coeffs _ _ _ _); [|discriminate].
        intros _. cbn. eexists. split; [reflexivity|]. split; [|split; [|split]]; reflexivity.
      + exists s1. split; auto. destruct HS as (E1 & E2 & E3 & E4). revert Er. unfold cs_set.
        destruct (negb _); [intros _; split; auto|]. destruct (areshape _ _); [|intros _; split; auto].
        destruct (filter_coeffs _ _ _ _); [discriminate|]. intros _. split; auto.
    - auto.
    - exists s0. split; auto. split; auto. }
  destruct I as (s1 & E & HS). exists s1. split; auto. now apply cs_same_eval.
Qed.

(** ** CubicSplines *)

Theorem cubics_history nan a b orders m h s0 s m' last :
  mcs_new nan a b orders None = Ok s0 -> after (mcs_step nan) h s0 m None = (s, m', last) ->
  mcs_new nan a b orders (option_map snd last) = Ok s.
Proof.
  intros H0 Ha. revert Ha.
  apply (after_inv (mcs_step nan) (fun s m last => mcs_new nan a b orders (option_map snd last) = Ok s)).
  - clear -H0. intros s m last id E. unfold mcs_step. unfold mcs_new in *. destruct (_ || _); [discriminate|].
    assert (E' : mcs_a s = a /\ mcs_b s = b /\ mcs_orders s = orders).
    { destruct (option_map snd last) as [v|]; [|inversion E; auto]. revert E. unfold mcs_set. cbn [mcs_a mcs_b mcs_orders].
      destruct (bind _ _) as [[v' c]|e]; cbn; [|discriminate]. intros E; inversion E; auto. }
    destruct E' as (F1 & F2 & F3).
    destruct (snd (mcs_set nan s (nd_arr (m id)))) as [[]|e] eqn:Er.
    + cbn [option_map snd]. revert Er. unfold mcs_set. cbn [mcs_a mcs_b mcs_orders]. rewrite F1, F2, F3.
      destruct (bind _ _) as [[v' c]|e]; [reflexivity|discriminate].
    + rewrite E. f_equal. revert Er. unfold mcs_set. destruct (bind _ _) as [[v' c]|e']; [discriminate|reflexivity].
  - auto.
  - exact H0.
Qed.

(** ** LinearSpline, LinearSplines *)

Definition ls_shape (multi : bool) (orders : list Z) (v : arr T) : res (list Z) :=
  if multi then n_x <- adim v (andim v - 1) ;; Ok (orders ++ [n_x]) else Ok orders.

Definition ls_inv (m0 : memory T) multi smin smax orders (s : linear T) (m : memory T) (last : option (nat * arr T)) : Prop :=
  ls_multi s = multi /\ ls_smin s = smin /\ ls_smax s = smax /\ ls_orders s = orders /\
  (forall i, nd_plain (m i) = nd_plain (m0 i)) /\
  match last with
  | None => ls_values s = None
  | Some (id, v) => ashape v = ashape (nd_arr (m id)) /\ exists sh a, ls_shape multi orders v = Ok sh /\ areshape v sh = Ok a /\
      ls_values s = Some (if nd_plain (m0 id) then View id sh else Own a)
  end.

Lemma ls_inv_after m0 multi smin smax orders h s0 s m' last :
  ls_new m0 multi smin smax orders None = Ok s0 -> after ls_set h s0 m0 None = (s, m', last) ->
  ls_inv m0 multi smin smax orders s m' last.
Proof.
  intros H0. apply (after_inv ls_set (ls_inv m0 multi smin smax orders)).
  - clear. intros s m last id (E1 & E2 & E3 & E4 & E5 & E6). unfold ls_set; cbv zeta. rewrite E1, E4.
    fold (ls_shape multi orders (nd_arr (m id))).
    destruct (ls_shape multi orders (nd_arr (m id))) as [sh|e] eqn:Esh; cbn [bind fst snd].
    + destruct (areshape (nd_arr (m id)) sh) as [a|e] eqn:Ea; cbn [bind fst snd].
      * repeat (split; [cbn; auto; fail|]). exists sh, a. rewrite E5. auto.
      * repeat (split; auto).
    + repeat (split; auto).
  - clear. intros s m last id idx x _ (E1 & E2 & E3 & E4 & E5 & E6). repeat (split; [assumption|]). split.
    + intros i. unfold written. destruct (Nat.eqb i id) eqn:E; cbn; auto.
    + destruct last as [[i v]|]; auto. destruct E6 as (S1 & E6). split; auto. unfold written. destruct (Nat.eqb i id); cbn; auto.
  - inversion H0; subst. repeat (split; auto).
Qed.

Lemma areshape_shape (a b : arr T) sh r : ashape a = ashape b -> areshape a sh = Ok r -> exists r', areshape b sh = Ok r'.
Proof. unfold areshape. intros <-. destruct (_ =? _); [eauto|discriminate]. Qed.
Lemma ls_shape_shape multi orders (a b : arr T) : ashape a = ashape b -> ls_shape multi orders a = ls_shape multi orders b.
Proof. unfold ls_shape, adim, andim. now intros ->. Qed.

Theorem linear_history m multi smin smax orders h s0 s m' last :
  ls_new m multi smin smax orders None = Ok s0 -> after ls_set h s0 m None = (s, m', last) ->
  exists s1, ls_fresh multi smin smax orders (content_used m m' last) = Ok s1 /\
    forall p, ls_interpolate m' s p = ls_fresh_eval s1 (content_used m m' last) p.
Proof.
  intros H0 Ha. destruct (ls_inv_after _ _ _ _ _ _ _ _ _ _ H0 Ha) as (E1 & E2 & E3 & E4 & E5 & E6).
  destruct last as [[id v]|]; cbn [content_used ls_fresh] in *.
  - destruct E6 as (Sv & sh & a & Esh & Ea & Es).
    set (now := if nd_plain (m id) then nd_arr (m' id) else v).
    assert (Sn : ashape now = ashape v) by (unfold now; destruct (nd_plain _); auto).
    destruct (areshape_shape v now sh a (eq_sym Sn) Ea) as (a' & Ea').
    unfold ls_new. unfold ls_set; cbv zeta. cbn [ls_multi ls_orders ls_smin ls_smax only nd_arr nd_plain].
    fold (ls_shape multi orders now). rewrite (ls_shape_shape multi orders now v Sn), Esh. cbn [bind]. rewrite Ea'. cbn [bind].
    eexists. split; [reflexivity|]. intros p. unfold ls_fresh_eval, ls_interpolate.
    cbn [ls_smin ls_smax ls_orders ls_values]. rewrite E2, E3, E4, Es. cbn [bind].
    assert (R : read_store m' (if nd_plain (m id) then View id sh else Own a) = Ok a').
    { unfold now in *. destruct (nd_plain (m id)); cbn [read_store]; [exact Ea'|]. congruence. }
    rewrite R. reflexivity.
  - unfold ls_new. eexists. split; [reflexivity|]. intros p. unfold ls_fresh_eval, ls_interpolate. cbn [ls_smin ls_smax ls_orders ls_values].
    rewrite E2, E3, E4, E6. reflexivity.
Qed.

Theorem linear_history_unshared m multi smin smax orders h s0 s m' last :
  (forall id idx x, In (Write id idx x) h -> nd_plain (m id) = false) ->
  ls_new m multi smin smax orders None = Ok s0 -> after ls_set h s0 m None = (s, m', last) ->
  exists s1, ls_fresh multi smin smax orders (option_map snd last) = Ok s1 /\
    forall p, ls_interpolate m' s p = ls_fresh_eval s1 (option_map snd last) p.
Proof.
  intros Hw H0 Ha. destruct (linear_history _ _ _ _ _ _ _ _ _ _ H0 Ha) as (s1 & E & H).
  assert (C : content_used m m' last = option_map snd last).
  { assert (I : forall i, nd_plain (m' i) = nd_plain (m i) /\ (nd_plain (m i) = true -> nd_arr (m' i) = nd_arr (m i)) /\
       match last with Some (id, v) => nd_plain (m id) = true -> v = nd_arr (m id) | None => True end).
    { revert Ha. apply (after_inv ls_set (fun s m1 last => forall i, nd_plain (m1 i) = nd_plain (m i) /\ (nd_plain (m i) = true -> nd_arr (m1 i) = nd_arr (m i)) /\
       match last with Some (id, v) => nd_plain (m id) = true -> v = nd_arr (m id) | None => True end)).
      - intros s' m1 la id HI i. destruct (HI i) as (A & B & C). split; auto. split; auto. destruct (snd _) as [[]|]; auto. apply (HI id).
      - intros s' m1 la id idx x Hin HI i. destruct (HI i) as (A & B & C). split; [|split; auto].
        + unfold written. destruct (Nat.eqb i id); cbn; auto.
        + intros Hp. unfold written. destruct (Nat.eqb_spec i id) as [->|]; auto. rewrite (Hw id idx x Hin) in Hp. discriminate.
      - auto. }
    destruct last as [[id v]|]; cbn; auto. destruct (I id) as (_ & B & C). destruct (nd_plain (m id)) eqn:P; auto. rewrite B, C by auto. reflexivity. }
  rewrite C in *. exists s1. auto.
Qed.

(** ** SmolyakInterp *)

Theorem smolyak_history solve (sg : sgrid T) m id0 h s0 s m' last :
  si_new solve sg (nd_arr (m id0)) = Ok s0 -> after (si_step solve) h s0 m (Some (id0, nd_arr (m id0))) = (s, m', last) ->
  exists id v s1, last = Some (id, v) /\ si_new solve sg v = Ok s1 /\
    forall pts i d dt dx, si_interpolate solve s pts i d dt dx = si_interpolate solve s1 pts i d dt dx.
Proof.
  intros H0 Ha.
  assert (I : exists id v s1, last = Some (id, v) /\ si_new solve sg v = Ok s1 /\ si_sg s = sg /\ si_sg s1 = sg /\ si_theta s = si_theta s1).
  { revert Ha. apply (after_inv (si_step solve) (fun s m last => exists id v s1, last = Some (id, v) /\ si_new solve sg v = Ok s1 /\ si_sg s = sg /\ si_sg s1 = sg /\ si_theta s = si_theta s1)).
    - clear. intros s m last id (i & v & s1 & -> & E & F1 & F2 & F3). unfold si_step, si_update. rewrite F1.
      destruct (find_theta solve sg (nd_arr (m id))) as [th|e] eqn:Et; cbn [fst snd].
      + exists id, (nd_arr (m id)). unfold si_new. rewrite Et. eexists. split; [reflexivity|]. split; [reflexivity|]. auto.
      + exists i, v, s1. auto.
    - auto.
    - exists id0, (nd_arr (m id0)), s0. split; auto. split; auto. unfold si_new in H0. destruct (find_theta _ _ _); cbn in H0; [|discriminate].
      inversion H0; subst; auto. }
  destruct I as (id & v & s1 & -> & E & F1 & F2 & F3). exists id, v, s1. split; auto. split; auto.
  intros. unfold si_interpolate. rewrite F1, F2, F3. reflexivity.
Qed.
End Any.
