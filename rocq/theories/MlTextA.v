(** The calls of [interp] and [mlinterp] at one point. *)
From Coq Require Import ZArith List Bool String Lia.
From Verif Require Import Base BaseFacts SplineModel InterpModel SpecInterp InterpProps PySyntax MlSem MlCps SpecMlText MlText.
Import ListNotations.
Open Scope Z_scope.

Lemma axes_cons {T} (axes : list (iarg T)) g grid : axes_of axes (g :: grid) -> exists e r, axes = e :: r /\ axis_of e g /\ axes_of r grid.
Proof. intros H. inversion H; subst. eauto. Qed.
Lemma axes_nil {T} (axes : list (iarg T)) : axes_of axes [] -> axes = [].
Proof. intros H. now inversion H. Qed.
Lemma axis_cases {T} (e : iarg T) g : axis_of e g -> (exists a b n, e = ADim a b n /\ g = Unif a b n) \/
  (exists m f gc, e = AArr (mkArr [m] f) /\ g = Nonunif gc /\ axis_of (AArr (mkArr [m] f)) (Nonunif gc)).
Proof.
  destruct e as [| |x|a b n]; destruct g as [a1 b1 n1|gc]; cbn; try contradiction.
  - intros [S A]. right. destruct x as [sh f]. cbn in S. subst sh. exists (zlen gc), f, gc. cbn in A |- *. auto.
  - intros (-> & -> & ->). left. eauto.
Qed.
(** All shapes explicit, in at most three dimensions. *)
Ltac explicit_axes :=
  repeat match goal with
         | H : axes_of _ (_ :: _) |- _ => let e := fresh "e" in let r := fresh "r" in let A := fresh "A" in
             apply axes_cons in H as (e & r & -> & A & H)
         | H : axes_of _ [] |- _ => apply axes_nil in H as ->
         end;
  repeat match goal with
         | H : axis_of ?e ?g |- _ => is_var e; let m := fresh "m" in let f := fresh "f" in let gc := fresh "gc" in
             apply axis_cases in H as [(m & f & gc & -> & ->)|(m & f & gc & -> & -> & H)]
         end.
Ltac explicit_shape sh :=
  repeat match goal with
         | H : zlen _ = _ |- _ => progress (cbn [zlen List.length Z.of_nat Pos.of_succ_nat Pos.succ] in H)
         end;
  destruct sh as [|? [|? [|? [|? sh]]]]; try discriminate; try (exfalso; unfold zlen in *; cbn [List.length] in *; lia).
(** What the model did, as operations of the text. *)
Ltac facts :=
  repeat match goal with
         | A : axis_of (AArr (mkArr [?m] ?f)) (Nonunif ?gc), B : lget ?gc (zlen ?gc - 1) = Ok _ |- _ =>
             rewrite (axis_len m f gc A) in B; apply (axis_get _ _ _ _ _ A) in B
         | A : axis_of (AArr (mkArr [?m] ?f)) (Nonunif ?gc), B : lget ?gc _ = Ok _ |- _ => apply (axis_get _ _ _ _ _ A) in B
         | B : get_index (Unif _ _ _) _ = Ok _ |- _ => apply unif_facts in B as (? & ? & ? & ? & ? & ?); subst
         | A : axis_of (AArr (mkArr [?m] ?f)) (Nonunif ?gc), B : get_index (Nonunif ?gc) _ = Ok _ |- _ => apply (nonunif_facts _ _ _ _ _ _ A) in B as (? & ? & ? & ? & ? & ?); subst
         | B : aget _ _ = Ok _ |- _ => apply std_get_ok in B
         end.
Lemma get_coeffs_body {T} {NT : Num T} (X : arr T) ix t : get_coeffs X ix = Ok t -> get_coeffs_from X ix [] = Ok t.
Proof. unfold get_coeffs. destruct (_ <? _); [discriminate|auto]. Qed.
Ltac inv_b :=
  repeat match goal with
         | H : bind ?m _ = Ok _ |- _ => let E := fresh "B" in destruct m eqn:E; cbn [bind] in H; [|discriminate H]
         | H : Ok _ = Ok _ |- _ => injection H as H; subst
         end.
Ltac nearest_facts H :=
  unfold ml_nearest, mlinterp_point in H; cbn [project] in H; inv_b; cbn [fst snd mapM2] in *; inv_b;
  repeat match goal with p : (Z * _)%type |- _ => destruct p end; cbn [split] in H;
  inv_b; repeat match goal with G : get_coeffs _ _ = Ok _ |- _ => apply get_coeffs_body in G; cbn [app get_coeffs_from] in G end;
  inv_b; cbn [tensor_reduction bind] in *; inv_b; facts.

Lemma tuple_text {T} {NT : Num T} axes grid (C : arr T) pt v :
  axes_of axes grid -> (1 <= List.length grid <= 3)%nat -> List.length pt = List.length grid -> andim C = zlen grid -> ml_nearest grid C pt = Ok v ->
  rcall std ml_program 60 "interp" (map of_arg axes ++ [RA C; RT (map RF pt)]) = Ok (RF v).
Proof.
  intros Ha Hd Hp HC H. rewrite rcall_cps. destruct C as [sh h]. unfold andim in HC. cbn [ashape] in HC.
  destruct grid as [|g0 [|g1 [|g2 [|g3 grid]]]]; cbn [List.length] in Hd; try lia;
  destruct pt as [|x0 [|x1 [|x2 [|x3 pt]]]]; try discriminate Hp; clear Hd Hp.
  all: explicit_axes; explicit_shape sh; nearest_facts H; cbn [map of_arg app]; call_tree; run_tree; reflexivity.
Qed.
Lemma scalars_text {T} {NT : Num T} axes grid (C : arr T) pt v :
  axes_of axes grid -> (1 <= List.length grid <= 3)%nat -> List.length pt = List.length grid -> andim C = zlen grid -> ml_nearest grid C pt = Ok v ->
  rcall std ml_program 60 "interp" (map of_arg axes ++ RA C :: map RF pt) = Ok (RF v).
Proof.
  intros Ha Hd Hp HC H. rewrite rcall_cps. destruct C as [sh h]. unfold andim in HC. cbn [ashape] in HC.
  destruct grid as [|g0 [|g1 [|g2 [|g3 grid]]]]; cbn [List.length] in Hd; try lia;
  destruct pt as [|x0 [|x1 [|x2 [|x3 pt]]]]; try discriminate Hp; clear Hd Hp.
  all: explicit_axes; explicit_shape sh; nearest_facts H; cbn [map of_arg app]; call_tree; run_tree; reflexivity.
Qed.
Ltac explicit_range H :=
  repeat match type of H with context [zrange ?z] => let l := eval vm_compute in (zrange z) in change (zrange z) with l in H end;
  cbn [mapM] in H; inv_b.
Lemma point_text {T} {NT : Num T} axes grid (C a : arr T) v :
  axes_of axes grid -> (2 <= List.length grid <= 3)%nat -> andim a = 1 -> andim C = zlen grid ->
  (point <- mapM (fun i => aget a [i]) (zrange (zlen grid)) ;; ml_nearest grid C point) = Ok v ->
  rcall std ml_program 60 "interp" (map of_arg axes ++ [RA C; RA a]) = Ok (RF v).
Proof.
  intros Ha Hd Hp HC H. rewrite rcall_cps. destruct C as [sh h]. unfold andim in HC. cbn [ashape] in HC.
  destruct a as [[|N [|N1 sa]] u]; unfold andim in Hp; cbn [ashape] in Hp; try discriminate; [|exfalso; unfold zlen in Hp; cbn [List.length] in Hp; lia].
  destruct grid as [|g0 [|g1 [|g2 [|g3 grid]]]]; cbn [List.length] in Hd; try lia; clear Hd Hp.
  all: explicit_range H; explicit_axes; explicit_shape sh; nearest_facts H; cbn [map of_arg app]; call_tree; run_tree; reflexivity.
Qed.
Lemma mlinterp_tuple_text {T} {NT : Num T} axes grid (C : arr T) pt v :
  axes_of axes grid -> (1 <= List.length grid <= 3)%nat -> List.length pt = List.length grid -> andim C = zlen grid -> mlinterp_point grid C pt = Ok v ->
  rcall std ml_program 60 "mlinterp" [RT (map of_arg axes); RA C; RT (map RF pt)] = Ok (RF v).
Proof.
  intros Ha Hd Hp HC H. rewrite rcall_cps. destruct C as [sh h]. unfold andim in HC. cbn [ashape] in HC.
  destruct grid as [|g0 [|g1 [|g2 [|g3 grid]]]]; cbn [List.length] in Hd; try lia;
  destruct pt as [|x0 [|x1 [|x2 [|x3 pt]]]]; try discriminate Hp; clear Hd Hp.
  all: explicit_axes; explicit_shape sh; nearest_facts H; cbn [map of_arg app]; call_tree; run_tree; reflexivity.
Qed.
