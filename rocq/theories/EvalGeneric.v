(** Facts about the evaluation model that hold for every arithmetic. *)
From Coq Require Import ZArith List Bool Lia ZifyBool.
From Verif Require Import Base BaseFacts SplineModel Spec.
Import ListNotations.
Open Scope Z_scope.

Section Gen.
Context {T : Type} {NT : Num T}.
Notation gdim := (gdim T).
Notation arr := (arr T).

(** ** Tensor reduction as a pure function *)
Fixpoint tsum (l : list (list T)) (f : list Z -> T) (inds : list Z) : T :=
  match l with
  | [] => f inds
  | h :: q => add_left (map (fun ih => n_mul (snd ih) (tsum q f (inds ++ [fst ih]))) (enum_from 0 h))
  end.

Lemma tsum_ext l : forall f g inds, (forall i, f i = g i) -> tsum l f inds = tsum l g inds.
Proof.
  induction l as [|h q IH]; cbn; intros f g inds H; auto. f_equal. apply map_ext. intros ih.
  f_equal. auto.
Qed.

Lemma enum_from_In {A} (l : list A) : forall i0 j a,
  In (j, a) (enum_from i0 l) -> i0 <= j < i0 + zlen l.
Proof.
  induction l as [|x l IH]; cbn; intros i0 j a H; [tauto|].
  rewrite zlen_cons. pose proof (zlen_nonneg l).
  destruct H as [H|H]. inversion H; lia. apply IH in H. lia.
Qed.

Lemma trex_ok l : forall c f inds,
  (forall idx, Forall2 (fun h i => 0 <= i < zlen h) l idx -> c (inds ++ idx) = Ok (f (inds ++ idx))) ->
  trex l c inds = Ok (tsum l f inds).
Proof.
  induction l as [|h q IH]; cbn; intros c f inds H.
  - rewrite <- (app_nil_r inds). apply H. constructor.
  - rewrite mapM_all_ok with (g := fun ih => n_mul (snd ih) (tsum q f (inds ++ [fst ih]))).
    reflexivity.
    intros [j a] Hin. apply enum_from_In in Hin. cbn [fst snd].
    rewrite (IH c f). reflexivity.
    intros idx Hi. rewrite <- app_assoc. apply H. constructor; auto.
Qed.

(** ** Blending weights: k+1 of them *)
Definition worder (k : Z) : Z := k + 1.
Lemma blend_len k l lam del ws : blend k l lam del = Ok ws -> zlen ws = k + 1.
Proof.
  unfold blend, blend_linear, blend_cubic.
  destruct (Z.eqb_spec k 1); [subst|destruct (Z.eqb_spec k 3); [subst|discriminate]].
  - destruct (l =? 0). { intros H; inversion H; reflexivity. }
    destruct (l =? 1). { intros H; inv_ok; reflexivity. } intros H; inversion H; reflexivity.
  - destruct (l =? 0). { intros H; inversion H; reflexivity. }
    destruct (l =? 1). { intros H; inversion H; reflexivity. } discriminate.
Qed.

Definition safe {A} (r : res A) : Prop := r <> Err IndexErr.
Lemma safe_ok {A} (a : A) : safe (Ok a). Proof. discriminate. Qed.
Lemma safe_bind {A B} (r : res A) (f : A -> res B) :
  safe r -> (forall a, r = Ok a -> safe (f a)) -> safe (bind r f).
Proof. unfold safe. destruct r; cbn; auto. intros H _ E. apply H. congruence. Qed.
Lemma safe_mapM {A B} (f : A -> res B) l :
  (forall a, In a l -> safe (f a)) -> safe (mapM f l).
Proof.
  induction l; cbn; intros H. apply safe_ok.
  apply safe_bind; auto. intros. apply safe_bind; auto. intros. apply safe_ok.
Qed.
Lemma safe_mapM2 {A B C} (f : A -> B -> res C) l m :
  (forall a b, In a l -> In b m -> safe (f a b)) -> safe (mapM2 f l m).
Proof.
  revert m; induction l; destruct m; cbn; intros H; try apply safe_ok; try discriminate.
  apply safe_bind; auto. intros. apply safe_bind; auto. intros. apply safe_ok.
Qed.
Lemma safe_foldM {S A} (f : S -> A -> res S) (I : S -> Prop) l s :
  I s -> (forall s a, In a l -> I s -> safe (f s a) /\ forall s', f s a = Ok s' -> I s') ->
  safe (foldM f l s).
Proof.
  revert s; induction l; cbn; intros s HI H. apply safe_ok.
  destruct (H s a (or_introl eq_refl) HI) as [H1 H2].
  apply safe_bind; auto.
Qed.

Lemma divE_safe x y : safe (divE x y).
Proof. unfold divE. destruct (n_is0 y); discriminate. Qed.

Lemma blend_safe k l lam del : safe (blend k l lam del).
Proof.
  unfold blend, blend_linear, blend_cubic.
  destruct (k =? 1); [|destruct (k =? 3)]; repeat destruct (l =? _); try discriminate.
  apply safe_bind; [apply divE_safe|]. intros. apply safe_bind; [apply divE_safe|]. discriminate.
Qed.

(** ** Index ranges *)
Lemma searchsorted_range gc x : 0 <= searchsorted gc x <= zlen gc.
Proof.
  induction gc; cbn [searchsorted]. { unfold zlen; cbn [length]; lia. } rewrite zlen_cons. destruct (n_ltb a x); lia.
Qed.

Definition gp_of (g : gdim) (gp : gpar) : Prop :=
  match g, gp with
  | Unif a b n, PU a' b' n' _ => a = a' /\ b = b' /\ n = n'
  | Nonunif gc, PN gc' N _ => gc = gc' /\ N = zlen gc
  | _, _ => False
  end.

Lemma recover1_gp g gp : recover1 g = Ok gp -> gp_of g gp.
Proof. destruct g; cbn; intros H; inv_ok; cbn; auto. Qed.
Lemma recoverN_gp g gp : recoverN g = Ok gp -> gp_of g gp.
Proof. destruct g; cbn; intros H; inv_ok; cbn; auto. Qed.

Lemma bracket_range g gp x i lam del :
  gp_of g gp -> 2 <= gsize g -> bracket gp x = Ok (i, lam, del) -> 0 <= i /\ i + 2 <= gsize g.
Proof.
  destruct g, gp; cbn; try tauto; intros H Hs Hb; inv_ok.
  - destruct H as (?&?&?); subst. cbn. lia.
  - destruct H; subst. pose proof (searchsorted_range gc0 x). lia.
Qed.

Lemma bracket_safe g gp x : gp_of g gp -> 2 <= gsize g -> safe (bracket gp x).
Proof.
  destruct g, gp; cbn; try tauto; intros H Hs. apply safe_ok.
  destruct H; subst.
  destruct gc0 as [|z0 gc0]; [unfold zlen in Hs; cbn in Hs; lia|].
  rewrite !(lget_ok (z0 :: gc0) _ z0) by lia. cbn [bind].
  apply safe_bind. apply divE_safe. intros; apply safe_ok.
Qed.

(** Brackets that fit coefficients of spline order k. *)
Definition br_fits (k : Z) (g : gdim) (br : Z * T * T) : Prop :=
  0 <= fst (fst br) /\ fst (fst br) + 2 <= gsize g.

Lemma mapM2_bracket_fits k grid gps xs brs :
  Forall2 gp_of grid gps -> Forall (fun g => 2 <= gsize g) grid ->
  mapM2 bracket gps xs = Ok brs -> Forall2 (br_fits k) grid brs.
Proof.
  intros H; revert xs brs; induction H as [|g gp grid gps Hg H IH]; intros xs brs Hs Hm; cbn in Hm.
  - destruct xs; inversion Hm; constructor.
  - destruct xs as [|x xs]; [discriminate|]. inv_ok. inversion Hs; subst.
    constructor; eauto. destruct x0 as [[i lam] del]. unfold br_fits; cbn.
    eapply bracket_range; eauto.
Qed.

Lemma Forall2_gp_mapM (f : gdim -> res gpar) grid gps :
  (forall g gp, f g = Ok gp -> gp_of g gp) -> mapM f grid = Ok gps -> Forall2 gp_of grid gps.
Proof.
  intros Hf H. apply mapM_ok in H. induction H; constructor; auto.
Qed.

Lemma csize_inb k grid brs idx :
  Forall2 (br_fits k) grid brs -> Forall2 (fun _ i => 0 <= i < k + 1) grid idx ->
  inb (map (csize k) grid) (map2 Z.add (map (fun br => fst (fst br)) brs) idx) = true.
Proof.
  intros H; revert idx; induction H as [|g br grid brs [Hb1 Hb2] H IH]; intros idx Hi;
    inversion Hi; subst; cbn; auto.
  rewrite IH by auto. unfold csize. rewrite andb_true_r. apply andb_true_iff. lia.
Qed.

Lemma mapM2_blend_shape k brs oo phis :
  mapM2 (fun (br : Z * T * T) l => let '(_, lam, del) := br in blend k l lam del) brs oo = Ok phis ->
  length phis = length brs /\ Forall (fun h => zlen h = k + 1) phis.
Proof.
  revert oo phis; induction brs as [|[[i lam] del] brs IH]; destruct oo; cbn; intros phis H;
    try discriminate; inv_ok.
  - auto.
  - match goal with Hm : mapM2 _ _ _ = _ |- _ => apply IH in Hm as [H1 H2] end.
    match goal with Hm : blend _ _ _ _ = _ |- _ => apply blend_len in Hm end. cbn. split; auto.
Qed.

(** The value of one evaluation, as a pure reduction. *)
Lemma get_value_ok k grid brs oo C ix shx phis :
  Forall2 (br_fits k) grid brs ->
  ashape C = map (csize k) grid ++ shx -> inb shx ix = true ->
  mapM2 (fun (br : Z * T * T) l => let '(_, lam, del) := br in blend k l lam del) brs oo = Ok phis ->
  get_value k brs oo C ix =
  Ok (tsum phis (fun inds => acell C (map2 Z.add (map (fun br => fst (fst br)) brs) inds ++ ix)) []).
Proof.
  intros Hb HC Hx Hp. unfold get_value. rewrite Hp. cbn [bind].
  apply mapM2_blend_shape in Hp as [L F].
  apply trex_ok. intros idx Hidx. cbn [app]. apply aget_ok.
  assert (HL : length idx = length grid).
  { apply Forall2_length in Hidx. apply Forall2_length in Hb. lia. }
  rewrite HC. rewrite inb_app.
  - rewrite Hx, andb_true_r. apply csize_inb; auto.
    assert (G : Forall2 (fun (_ : list T) i => 0 <= i < k + 1) phis idx).
    { clear -Hidx F. induction Hidx; constructor; inversion F; subst; auto. lia. }
    apply Forall2_length in Hb.
    clear -G L HL Hb. rewrite <- Hb in L. clear Hb. revert grid L HL.
    induction G; intros [|g grid]; cbn; intros; try discriminate; constructor; auto.
  - rewrite map_length, map2_length. now rewrite map_length; apply Forall2_length in Hb.
    rewrite map_length. apply Forall2_length in Hb. lia.
Qed.

Lemma get_value_safe k grid brs oo C ix shx :
  Forall2 (br_fits k) grid brs ->
  ashape C = map (csize k) grid ++ shx -> inb shx ix = true ->
  safe (get_value k brs oo C ix).
Proof.
  intros Hb HC Hx.
  destruct (mapM2 (fun (br : Z * T * T) l => let '(_, lam, del) := br in blend k l lam del) brs oo)
    as [phis|e] eqn:E.
  - erewrite get_value_ok by eauto. apply safe_ok.
  - unfold get_value. rewrite E. cbn.
    assert (S : safe (mapM2 (fun (br : Z * T * T) l => let '(_, lam, del) := br in blend k l lam del) brs oo)).
    { apply safe_mapM2. intros [[? ?] ?] ? _ _. apply blend_safe. }
    rewrite E in S. intros Hc. apply S. congruence.
Qed.

End Gen.
