(** Exact behaviour of the single-point in-place call forms that do not do what the
    allocating call does (C06, C09), for every arithmetic. *)
From Coq Require Import ZArith List Bool Lia ZifyBool.
From Verif Require Import Base BaseFacts SplineModel Spec EvalGeneric EvalMaster EvalProps.
Import ListNotations.
Open Scope Z_scope.

Section Gen.
Context {T : Type} {NT : Num T}.
Implicit Types (grid : list (gdim T)) (C : arr T) (gps : list (@gpar T)) (pt : list T)
  (orders : option (list (list Z))).

Definition rebase (out : option (arr T)) (c : @coords1 T) : @coords1 T :=
  match c with Go1 xs _ => Go1 xs out | Ret1 v _ => Ret1 v out end.

Lemma extract1_scalar xm al al' gps : forall pt out out',
  extract1 xm false al gps pt out =
  bind (extract1 xm false al' gps pt out') (fun c => Ok (rebase out c)).
Proof.
  induction gps as [|gp gps IH]; intros pt out out'; cbn [extract1]; auto.
  destruct pt as [|x pt]; auto.
  assert (G : forall y,
     bind (extract1 xm false al gps pt out) (fun r => match r with Go1 xs o => Ok (Go1 (y :: xs) o) | Ret1 v o => Ok (Ret1 v o) end) =
     bind (bind (extract1 xm false al' gps pt out') (fun r => match r with Go1 xs o => Ok (Go1 (y :: xs) o) | Ret1 v o => Ok (Ret1 v o) end))
       (fun c => Ok (rebase out c))).
  { intros y. rewrite (IH pt out out'). destruct (extract1 xm false al' gps pt out') as [[xs o|v o]|]; reflexivity. }
  destruct xm.
  - destruct (bounds gp) as [[a b]|]; cbn [bind]; auto. destruct (outside a b x); auto.
  - apply G.
  - destruct (bounds gp) as [[a b]|]; cbn [bind]; auto.
Qed.

(** Scalar, no [diff]: [out] is ignored, the number is returned. *)
Theorem inplace_scalar_ignored k xm grid C pt out v :
  coefs_ok k grid [] C ->
  eval_spline k None xm grid C (P1 pt) None = Ok (v, None) ->
  eval_spline k None xm grid C (P1 pt) (Some out) = Ok (v, Some out).
Proof.
  intros HC. destruct (comps_nvals k grid [] C None HC) as [E1 [E2 [E3 E4]]].
  cbn [eval_spline]. unfold eval_point. rewrite E4. intros H.
  destruct (compile_check k grid None); cbn [bind] in *; [|discriminate].
  destruct (if _ && _ then Err NameErr else Ok tt) as [[]|]; cbn [bind] in *; [|discriminate].
  assert (Q : match xm with XConstant => Ok tt | _ => Ok tt end = Ok tt) by (now destruct xm).
  rewrite Q in *. cbn [bind] in *.
  destruct (mapM recover1 grid) as [gps|]; cbn [bind] in *; [|discriminate].
  rewrite (extract1_scalar xm false true gps pt (Some out) None).
  destruct (extract1 xm false true gps pt None) as [[xs o|r o]|] eqn:E; cbn [bind rebase] in *; [| |discriminate].
  - destruct (mapM2 bracket gps xs) as [brs|]; cbn [bind] in *; [|discriminate].
    destruct (get_value k brs (zeros_like brs) C []) as [x|]; cbn [bind] in *; [|discriminate].
    inversion H; subst. reflexivity.
  - inversion H; subst. reflexivity.
Qed.

(** Vector-valued, CONSTANT, in place: the zeros are overwritten by linear extrapolation. *)
Lemma extract1_const_fall gps : forall pt (o : arr T) xs,
  (forall gp, In gp gps -> exists ab, bounds gp = Ok ab) ->
  extractN XLinear gps pt = Ok (Some xs) ->
  exists o', extract1 XConstant true false gps pt (Some o) = Ok (Go1 xs (Some o')) /\ ashape o' = ashape o.
Proof.
  induction gps as [|gp gps IH]; intros pt o xs Hb H.
  - destruct pt; cbn in H; inversion H; subst; cbn; eauto.
  - destruct pt as [|x pt]; [discriminate|]. cbn in *.
    apply bind_ok in H as [r [Hr H]]. destruct r as [ys|]; [|discriminate]. inversion H; subst.
    destruct (Hb gp) as [[a b] Eb]; auto. rewrite Eb. cbn [bind].
    destruct (outside a b x).
    + destruct (IH pt (afill0 o) ys) as [o' [E S]]; auto. rewrite E. cbn. eauto.
    + destruct (IH pt o ys) as [o' [E S]]; auto. rewrite E. cbn. eauto.
Qed.

Lemma extract1_linear vv al gps : forall pt out xs,
  extractN XLinear gps pt = Ok (Some xs) -> extract1 XLinear vv al gps pt out = Ok (Go1 xs out).
Proof.
  induction gps as [|gp gps IH]; intros pt out xs H.
  - cbn in *. now inversion H.
  - destruct pt as [|x pt]; [discriminate|]. cbn in *.
    apply bind_ok in H as [r [Hr H]]. destruct r as [ys|]; [|discriminate]. inversion H; subst.
    now rewrite (IH _ _ _ Hr).
Qed.

Lemma all_uniform_existsb grid : all_uniform grid -> existsb is_nonunif grid = false.
Proof.
  intros H. induction H as [|g grid Hg H IH]; auto. cbn. rewrite IH. destruct g; auto. exfalso; apply Hg; exact I.
Qed.

Lemma recover1_bounds grid gps : all_uniform grid -> mapM recover1 grid = Ok gps ->
  forall gp, In gp gps -> exists ab, bounds gp = Ok ab.
Proof.
  intros H. revert gps; induction H as [|g grid Hg H IH]; cbn; intros gps E gp Hin.
  - inversion E; subst. contradiction.
  - apply bind_ok in E as [g0 [E0 E]]. apply bind_ok in E as [gs [E1 E]]. inversion E; subst.
    destruct Hin as [->|Hin]; [|eauto]. destruct g; [|exfalso; apply Hg; exact I].
    cbn in E0. apply bind_ok in E0 as [del [_ E0]]. inversion E0; subst. cbn. eauto.
Qed.

Theorem inplace_constant_is_linear k orders grid nx C pt a out :
  coefs_ok k grid [nx] C -> grid_sizes_ok grid -> all_uniform grid ->
  ashape out = result_shape [nx] orders ->
  eval_spline k orders XLinear grid C (P1 pt) None = Ok (VArr a, None) ->
  exists out', eval_spline k orders XConstant grid C (P1 pt) (Some out) = Ok (VNone, Some out') /\ aeq a out'.
Proof.
  intros HC Hsz Hu Ho H.
  assert (K : exists o2, ashape o2 = ashape out /\
    eval_spline k orders XConstant grid C (P1 pt) (Some out) = eval_spline k orders XLinear grid C (P1 pt) (Some o2)).
  { destruct (comps_nvals k grid [nx] C orders HC) as [E1 [E2 [E3 E4]]].
    cbn [eval_spline] in *. unfold eval_point in *. rewrite E4 in *. rewrite (all_uniform_existsb grid Hu) in *.
    cbn [andb negb bind] in *.
    destruct (compile_check k grid orders); cbn [bind] in *; [|discriminate].
    destruct (adim C (zlen grid)) as [nv|]; cbn [bind] in *; [|discriminate].
    destruct (mapM recover1 grid) as [gps|] eqn:Eg; cbn [bind] in *; [|discriminate].
    apply bind_ok in H as [co [Hco _]].
    assert (X : exists xs, extractN XLinear gps pt = Ok (Some xs)).
    { apply extract1_inv in Hco; [|destruct orders; eauto].
      destruct Hco as [xo [[E|[_ E]] X]]; [|discriminate]. destruct xo; [eauto|discriminate]. }
    destruct X as [xs Hxs].
    destruct (extract1_const_fall gps pt out xs (recover1_bounds grid gps Hu Eg) Hxs) as [o2 [E S]].
    exists o2. split; auto. rewrite E, (extract1_linear true false gps pt (Some o2) xs Hxs). cbn [bind].
    destruct orders; reflexivity. }
  destruct K as [o2 [S ->]].
  destruct (inplace_point k orders XLinear grid [nx] C pt (VArr a) o2 HC Hsz) as [out' [E [Es Q]]]; auto; try discriminate.
  { left; discriminate. } { congruence. }
  exists out'. split; auto.
Qed.

(** Scalar with [diff], CONSTANT, in place: outside of the domain 0.0 is returned and [out]
    is left as it was. *)
Definition some_outside grid pt : Prop :=
  exists i a b n x, nth_error grid i = Some (Unif a b n) /\ nth_error pt i = Some x /\ outside a b x = true.

Lemma extract1_const_out al : forall grid gps pt out,
  all_uniform grid -> mapM recover1 grid = Ok gps -> length pt = length grid -> some_outside grid pt ->
  extract1 XConstant false al gps pt out = Ok (Ret1 (VNum (n_ofZ 0)) out).
Proof.
  induction grid as [|g grid IH]; intros gps pt out Hu Hg HL [i [a [b [n [x [H1 [H2 H3]]]]]]].
  - destruct i; discriminate.
  - destruct pt as [|y pt]; [discriminate|]. inversion Hu as [|? ? Hg0 Hu']; subst.
    cbn in Hg. apply bind_ok in Hg as [g0 [E0 Hg]]. apply bind_ok in Hg as [gs [E1 Hg]]. inversion Hg; subst.
    destruct g as [a0 b0 n0|]; [|exfalso; apply Hg0; exact I].
    cbn in E0. apply bind_ok in E0 as [del [_ E0]]. inversion E0; subst. cbn [extract1 bounds bind].
    destruct (outside a0 b0 y) eqn:Eo; auto.
    destruct i as [|i]; cbn in H1, H2.
    + inversion H1; inversion H2; subst. congruence.
    + rewrite (IH gs pt out); auto. exists i, a, b, n, x. auto.
Qed.

Theorem inplace_constant_scalar_outside k os grid C pt out r :
  coefs_ok k grid [] C -> grid_sizes_ok grid -> all_uniform grid -> length pt = length grid ->
  eval_spline k (Some os) XLinear grid C (P1 pt) None = Ok (r, None) ->
  some_outside grid pt ->
  eval_spline k (Some os) XConstant grid C (P1 pt) (Some out) = Ok (VNum (n_ofZ 0), Some out).
Proof.
  intros HC Hsz Hu HL H Hout.
  destruct (comps_nvals k grid [] C (Some os) HC) as [E1 [E2 [E3 E4]]].
  cbn [eval_spline] in *. unfold eval_point in *. rewrite E4 in *. rewrite (all_uniform_existsb grid Hu) in *.
  cbn [andb negb bind] in *.
  destruct (compile_check k grid (Some os)); cbn [bind] in *; [|discriminate].
  destruct (mapM recover1 grid) as [gps|] eqn:Eg; cbn [bind] in *; [|discriminate].
  now rewrite (extract1_const_out false grid gps pt (Some out) Hu Eg HL Hout).
Qed.

End Gen.
