(** Over the reals: the values the texts of multilinear/ compute. *)
From Coq Require Import ZArith List Bool String Reals Lia.
From Verif Require Import Base BaseFacts SplineModel Spec InterpModel SpecInterp EvalProps EvalValue EvalR WeightsR RSum EvalRProps InterpProps PySyntax MlSem SpecMlText MlTextD.
Import ListNotations.
Open Scope Z_scope.

Local Opaque ml_text.
Section Real.
Variables (axes : list (iarg R)) (grid : list (gdim R)) (C : arr R).
Hypotheses (Ha : axes_of axes grid) (Hd : (1 <= List.length grid <= 3)%nat) (Hv : valid_grid grid) (HC : coefs_ok 1 grid [] C).
Let Hg : grid <> [].
Proof. destruct grid; cbn in Hd; [lia|discriminate]. Qed.
Let HA : andim C = zlen grid := coefs_andim grid C HC.
Lemma real_tuple pt : List.length pt = List.length grid -> exists v, ml_text "interp" (map of_arg (axes ++ [AArr C; ATuple pt])) = Ok (RF v) /\ interp_tuple axes C pt = Ok (VNum v).
Proof.
  intros HL. destruct (interp_total axes grid C pt) as [v Ev]; auto. exists v. split; [|exact Ev].
  apply (interp_is_text axes grid C [ATuple pt] (VNum v)); auto. left. eauto.
Qed.
Theorem text_value pt v : List.length pt = List.length grid ->
  (ml_text "interp" (map of_arg (axes ++ [AArr C; ATuple pt])) = Ok (RF v) <-> value_linear (Some XNearest) grid [] C pt [] v).
Proof.
  intros HL. destruct (real_tuple pt HL) as (w & E1 & E2). rewrite <- (interp_is_nearest axes grid C pt v); auto.
  rewrite E1, E2. split; intros H; injection H as ->; reflexivity.
Qed.
Theorem text_node idx : inb (ashape C) idx = true -> ml_text "interp" (map of_arg (axes ++ [AArr C; ATuple (node_at grid idx)])) = Ok (RF (acell C idx)).
Proof.
  intros Hi. assert (HL : List.length (node_at grid idx) = List.length grid).
  { apply node_at_length. pose proof (proj1 HC) as S. now rewrite S, app_nil_r, csize1_map in Hi. }
  destruct (real_tuple _ HL) as (w & E1 & E2). rewrite (interp_at_node axes grid) in E2 by auto. injection E2 as ->. exact E1.
Qed.
Theorem text_range m M pt : List.length pt = List.length grid -> (forall idx, inb (ashape C) idx = true -> m <= acell C idx <= M)%R ->
  exists v, ml_text "interp" (map of_arg (axes ++ [AArr C; ATuple pt])) = Ok (RF v) /\ (m <= v <= M)%R.
Proof. intros HL Hc. destruct (real_tuple pt HL) as (w & E1 & E2). exists w. split; auto. eapply interp_range; eauto. Qed.
Theorem text_rows a N p : ashape a = [N; p] -> 0 <= N -> zlen grid <= p ->
  exists r, ml_text "interp" (map of_arg (axes ++ [AArr C; AArr a])) = Ok (RA r) /\ ashape r = [N] /\
    forall n, 0 <= n < N -> ml_text "interp" (map of_arg (axes ++ [AArr C; ATuple (row_of (zlen grid) a n)])) = Ok (RF (acell r [n])).
Proof.
  intros Hs HN Hp. destruct (interp_rows axes grid C a N p) as [K1 K2]; auto.
  assert (HL : forall n, List.length (row_of (zlen grid) a n) = List.length grid) by (intros n; unfold row_of; rewrite map_length, zrange_length; unfold zlen; lia).
  destruct K2 as [r Er]. { intros idx _. apply (interp_total axes grid); auto. }
  destruct (K1 _ Er) as (r' & [= <-] & S & V). exists r. split; [|split; [exact S|]].
  - apply (interp_is_text axes grid C [AArr a] (VArr r)); auto. right. left. exists a. split; auto. right. unfold andim. now rewrite Hs.
  - intros n Hn. destruct (real_tuple _ (HL n)) as (w & E1 & E2). specialize (V [n]). cbn in V. rewrite E2 in V.
    assert (E : Ok (VNum w) = Ok (VNum (acell r [n]))) by (apply V; lia). injection E as <-. exact E1.
Qed.
End Real.
