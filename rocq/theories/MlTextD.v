(** What the texts of multilinear/ compute, over all the kinds of calls. *)
From Coq Require Import ZArith List Bool String Lia.
From Verif Require Import Base BaseFacts SplineModel InterpModel SpecInterp InterpProps PySyntax MlSem MlCps SpecMlText MlText MlTextA MlTextB MlTextC.
Import ListNotations.
Open Scope Z_scope.

Local Opaque ml_text.
Section Forms.
Context {T : Type} {NT : Num T}.

(** ** The model's loops, without a hypothesis on the sizes. *)
Lemma rows_eq axes grid (C a : arr T) N p :
  axes_of axes grid -> grid <> [] -> andim C = zlen grid -> ashape a = [N; p] ->
  interp (axes ++ [AArr C; AArr a]) =
    (r <- fill1 N (fun n => p <- mapM (fun i => aget a [n; i]) (zrange (zlen grid)) ;; ml_nearest grid C p) ;; Ok (VArr r)).
Proof.
  intros Ha Hg HC Hs. pose proof (axes_len _ _ Ha) as HL. pose proof (grid_pos _ Hg) as Hd.
  unfold interp. rewrite (detect_at _ grid _ _ false Ha); auto; try discriminate.
  2:{ intros HN1. constructor; auto. cbn. unfold andim at 1. rewrite Hs. change (zlen [N; p]) with 2. lia. }
  cbn [eval_type]. unfold andim. rewrite Hs. change (zlen [N; p]) with 2. cbn [Z.eqb Pos.eqb bind orb].
  replace (zlen grid =? 0) with false by lia.
  rewrite firstn_exact by lia. rewrite (to_dim_axes _ _ Ha). cbn [bind].
  rewrite lget_mid by lia. cbn [bind as_arr].
  rewrite (lget_after axes (AArr C) _ (zlen grid + 1) 0) by lia. cbn. unfold adim. rewrite Hs. reflexivity.
Qed.
Lemma array1_eq e g (C a : arr T) N :
  axis_of e g -> andim C = 1 -> ashape a = [N] ->
  interp [e; AArr C; AArr a] = (r <- fill1 N (fun n => x <- aget a [n] ;; ml_nearest [g] C [x]) ;; Ok (VArr r)).
Proof.
  intros Hx HC Hs. assert (Ha : axes_of [e] [g]) by (repeat constructor; auto).
  unfold interp. change [e; AArr C; AArr a] with ([e] ++ AArr C :: [AArr a]).
  rewrite (detect_at _ [g] _ _ false Ha); auto; try discriminate.
  2:{ intros HN1. constructor; auto. cbn. unfold andim at 1. rewrite Hs. change (zlen [N]) with 1. lia. }
  cbn [eval_type]. unfold andim. rewrite Hs. change (zlen [N]) with 1. cbn [Z.eqb Pos.eqb bind].
  change (zlen [g]) with 1. cbn [Z.eqb Pos.eqb orb].
  rewrite firstn_exact by reflexivity. rewrite (to_dim_axes _ _ Ha). cbn.
  change (Pos.to_nat 1) with 1%nat. change (Pos.to_nat 2) with 2%nat. change (Pos.to_nat 3) with 3%nat. change (Pos.to_nat 4) with 4%nat.
  cbn. rewrite Hs. reflexivity.
Qed.
Lemma point_eq axes grid (C a : arr T) n :
  axes_of axes grid -> 2 <= zlen grid -> andim C = zlen grid -> ashape a = [n] ->
  interp (axes ++ [AArr C; AArr a]) = (v <- (point <- mapM (fun i => aget a [i]) (zrange (zlen grid)) ;; ml_nearest grid C point) ;; Ok (VNum v)).
Proof.
  intros Ha Hg HC Hs. pose proof (axes_len _ _ Ha) as HL.
  assert (Hg0 : grid <> []) by (intros ->; rewrite zlen_nil in Hg; lia).
  unfold interp. rewrite (detect_at _ grid _ _ false Ha); auto; try discriminate.
  2:{ intros HN1. constructor; auto. cbn. unfold andim at 1. rewrite Hs. change (zlen [n]) with 1. lia. }
  cbn [eval_type]. unfold andim. rewrite Hs. change (zlen [n]) with 1. cbn [Z.eqb Pos.eqb bind].
  replace (zlen grid =? 1) with false by lia. cbn [orb]. replace (zlen grid =? 0) with false by lia.
  rewrite firstn_exact by lia. rewrite (to_dim_axes _ _ Ha). cbn [bind].
  rewrite lget_mid by lia. cbn [bind as_arr].
  rewrite (lget_after axes (AArr C) _ (zlen grid + 1) 0) by lia. cbn [lget Z.ltb Z.compare Z.to_nat nth_error bind as_arr].
  destruct (mapM _ _); reflexivity.
Qed.
Lemma cartesian_eq e1 e2 g1 g2 (C ax ay : arr T) N M :
  axis_of e1 g1 -> axis_of e2 g2 -> andim C = 2 -> ashape ax = [N] -> ashape ay = [M] ->
  interp [e1; e2; AArr C; AArr ax; AArr ay] =
    (r <- fill2 N M (fun n m => x <- aget ax [n] ;; y <- aget ay [m] ;; ml_nearest [g1; g2] C [x; y]) ;; Ok (VArr r)).
Proof.
  intros Hx Hy HC Hs Hs'. assert (Ha : axes_of [e1; e2] [g1; g2]) by (repeat constructor; auto).
  unfold interp. change [e1; e2; AArr C; AArr ax; AArr ay] with ([e1; e2] ++ AArr C :: [AArr ax; AArr ay]).
  rewrite (detect_at _ [g1; g2] _ _ false Ha); auto; try discriminate.
  2:{ intros HN1. repeat constructor; auto; cbn; unfold andim at 1; rewrite ?Hs, ?Hs'; unfold zlen at 1; cbn; lia. }
  cbn [eval_type forallb is_arr andb arg_ndim]. unfold andim. rewrite Hs, Hs'. change (zlen [N]) with 1. change (zlen [M]) with 1. cbn [Z.eqb Pos.eqb andb bind].
  change (zlen [g1; g2]) with 2. cbn [Z.eqb Pos.eqb orb].
  rewrite firstn_exact by reflexivity. rewrite (to_dim_axes _ _ Ha). cbn.
  change (Pos.to_nat 2) with 2%nat. change (Pos.to_nat 3) with 3%nat. change (Pos.to_nat 4) with 4%nat.
  cbn. rewrite Hs. cbn [bind]. rewrite Hs'. reflexivity.
Qed.

(** ** The text. *)
Lemma shape1 (a : arr T) : andim a = 1 -> exists n, ashape a = [n].
Proof. unfold andim. destruct (ashape a) as [|n [|m l]]; try discriminate; eauto. unfold zlen. cbn [List.length]. lia. Qed.
Lemma shape2 (a : arr T) : andim a = 2 -> exists n m, ashape a = [n; m].
Proof. unfold andim. destruct (ashape a) as [|n [|m [|k l]]]; try discriminate; eauto. unfold zlen. cbn [List.length]. lia. Qed.
Theorem interp_is_text axes grid (C : arr T) ea v :
  axes_of axes grid -> (1 <= List.length grid <= 3)%nat -> andim C = zlen grid -> points_arg (List.length grid) ea ->
  interp (axes ++ AArr C :: ea) = Ok v -> ml_text "interp" (map of_arg (axes ++ AArr C :: ea)) = Ok (of_val v).
Proof.
  intros Ha Hd HC Hp H. rewrite ml_text_eq, map_app. cbn [map of_arg].
  assert (Hg : grid <> []) by (destruct grid; cbn in Hd; [lia|discriminate]).
  destruct Hp as [(pt & HL & [->| ->])|[(a & [Hn|Hn] & ->)|(Hd2 & a & b & H1 & H2 & ->)]].
  - change (interp_tuple axes C pt = Ok v) in H. rewrite (interp_tuple_eq _ grid) in H by auto.
    apply bind_ok in H as (x & Hx & [= <-]). cbn [of_val map of_arg]. eapply tuple_text; eauto.
  - rewrite (interp_scalars _ grid), (interp_tuple_eq _ grid) in H by auto.
    apply bind_ok in H as (x & Hx & [= <-]). rewrite map_map. cbn [of_arg of_val]. eapply scalars_text; eauto.
  - destruct (shape1 a Hn) as [n Hs]. destruct (Nat.eq_dec (List.length grid) 1) as [E1|E1].
    + destruct grid as [|g [|]]; try discriminate E1. apply axes_cons in Ha as (e & r & -> & A & Ha). apply axes_nil in Ha as ->.
      cbn [app] in H. rewrite (array1_eq e g C a n) in H by auto. apply bind_ok in H as (x & Hx & [= <-]).
      cbn [map app of_val of_arg]. eapply array1_text; eauto.
    + rewrite (point_eq axes grid C a n) in H by (auto; unfold zlen; lia). apply bind_ok in H as (x & Hx & [= <-]).
      cbn [of_val map of_arg]. eapply point_text; eauto; lia.
  - destruct (shape2 a Hn) as (n & m & Hs). rewrite (rows_eq axes grid C a n m) in H by auto. apply bind_ok in H as (x & Hx & [= <-]).
    cbn [of_val map of_arg]. eapply rows_text; eauto.
  - destruct (shape1 a H1) as [n Hs]. destruct (shape1 b H2) as [m Hs'].
    destruct grid as [|g1 [|g2 [|]]]; try discriminate Hd2.
    assert (A0 := Ha). apply axes_cons in Ha as (e1 & r & -> & A & Ha). apply axes_cons in Ha as (e2 & r2 & -> & A2 & Ha). apply axes_nil in Ha as ->.
    cbn [app] in H. rewrite (cartesian_eq e1 e2 g1 g2 C a b n m) in H by auto. apply bind_ok in H as (x & Hx & [= <-]).
    cbn [of_val map of_arg]. eapply (cartesian_text [e1; e2]); eauto.
Qed.
Theorem mlinterp_is_text axes grid (C : arr T) u v :
  axes_of axes grid -> (1 <= List.length grid <= 3)%nat -> andim C = zlen grid ->
  (forall x, u = P1 x -> List.length x = List.length grid) ->
  mlinterp grid C u = Ok v -> ml_text "mlinterp" [RT (map of_arg axes); RA C; of_arg (match u with P1 x => ATuple x | P2 a => AArr a end)] = Ok (of_val v).
Proof.
  intros Ha Hd HC Hu H. rewrite ml_text_eq. destruct u as [x|a]; cbn [mlinterp of_arg] in *.
  - apply bind_ok in H as (y & Hy & [= <-]). eapply mlinterp_tuple_text; eauto.
  - destruct (andim a =? 2) eqn:E; [|discriminate H]. cbn [negb] in H. destruct (shape2 a) as (n & m & Hs); [lia|].
    unfold adim in H. rewrite Hs in H. cbn [lget Z.ltb Z.compare Z.to_nat nth_error bind] in H. apply bind_ok in H as (y & Hy & [= <-]).
    eapply mlinterp_rows_text; eauto.
Qed.

(** ** What the text refuses. *)
Ltac refused := rewrite rcall_cps; match goal with |- exists e, ?l = Err e => let E := fresh in
  assert (E : exists e, l = Err e); [|exact E]; eexists; call_tree; reflexivity end.
Theorem vector_refused axes grid (C : arr T) ea :
  axes_of axes grid -> (1 <= List.length grid <= 3)%nat -> andim C = zlen grid + 1 -> points_arg (List.length grid) ea ->
  exists e, ml_text "interp" (map of_arg (axes ++ AArr C :: ea)) = Err e.
Proof.
  intros Ha Hd HC Hp. rewrite ml_text_eq, map_app. cbn [map of_arg].
  destruct C as [sh h]. unfold andim in HC. cbn [ashape] in HC.
  destruct grid as [|g0 [|g1 [|g2 [|g3 grid]]]]; cbn [List.length] in Hd; try lia; clear Hd.
  all: destruct sh as [|s0 [|s1 [|s2 [|s3 [|s4 sh]]]]]; try (exfalso; unfold zlen in HC; cbn [List.length] in HC; lia).
  all: destruct Hp as [(pt & HL & [->| ->])|[(a & [Hn|Hn] & ->)|(Hd2 & a & b & H1 & H2 & ->)]]; try discriminate.
  all: try (destruct pt as [|x0 [|x1 [|x2 [|x3 pt]]]]; try discriminate HL).
  all: try (destruct (shape1 a Hn) as [n Hs]; destruct a as [sa u]; cbn [ashape] in Hs; subst sa).
  all: try (destruct (shape2 a Hn) as (n & p & Hs); destruct a as [sa u]; cbn [ashape] in Hs; subst sa).
  all: try (destruct (shape1 a H1) as [n Hs]; destruct a as [sa u]; cbn [ashape] in Hs; subst sa; destruct (shape1 b H2) as [n2 Hs]; destruct b as [sa u2]; cbn [ashape] in Hs; subst sa).
  all: explicit_axes; cbn [map of_arg app]; refused.
Qed.
Theorem cartesian3_refused axes grid (C a1 a2 a3 : arr T) :
  axes_of axes grid -> List.length grid = 3%nat -> andim C = 3 -> andim a1 = 1 -> andim a2 = 1 -> andim a3 = 1 ->
  exists e, ml_text "interp" (map of_arg (axes ++ [AArr C; AArr a1; AArr a2; AArr a3])) = Err e.
Proof.
  intros Ha Hd HC H1 H2 H3. rewrite ml_text_eq, map_app. cbn [map of_arg].
  destruct C as [sh h]. unfold andim in HC. cbn [ashape] in HC. destruct grid as [|g0 [|g1 [|g2 [|g3 grid]]]]; try discriminate Hd.
  destruct sh as [|s0 [|s1 [|s2 [|s3 sh]]]]; try (exfalso; unfold zlen in HC; cbn [List.length] in HC; lia).
  destruct (shape1 a1 H1) as [n1 E1], (shape1 a2 H2) as [n2 E2], (shape1 a3 H3) as [n3 E3]. destruct a1 as [sh1 u1], a2 as [sh2 u2], a3 as [sh3 u3]. cbn [ashape] in E1, E2, E3. subst.
  explicit_axes; cbn [map of_arg app]; refused.
Qed.
Theorem mlinterp_vector_refused axes grid (C a : arr T) :
  axes_of axes grid -> (1 <= List.length grid <= 3)%nat -> andim a = 1 ->
  exists e, ml_text "mlinterp" [RT (map of_arg axes); RA C; RA a] = Err e.
Proof.
  intros Ha Hd H1. rewrite ml_text_eq. destruct C as [sh h].
  destruct grid as [|g0 [|g1 [|g2 [|g3 grid]]]]; cbn [List.length] in Hd; try lia; clear Hd.
  all: destruct (shape1 a H1) as [n E]; destruct a as [sa u]; cbn [ashape] in E; subst; explicit_axes; cbn [map of_arg app]; refused.
Qed.
End Forms.
