(** Concrete cases for the theorems of PropsError. *)
From Coq Require Import ZArith List Bool Reals Lia Lra ZifyBool.
From Coquelicot Require Import Coquelicot.
From Verif Require Import Base BaseFacts SplineModel PrefilterModel Spec SpecError EvalProps EvalValue EvalR EvalRProps ExampleData EvalCases PrefilterProps PrefilterCases ErrorR CubicError CurvatureR.
Import ListNotations.
Open Scope R_scope.

Lemma exg_nodes : gnode (Unif 0 1 3) 1 = 1 / 2 /\ gnode (Unif 0 1 3) (1 + 1) = 1 /\
  gnode (Nonunif [0; 1; 3]) 1 = 1 /\ gnode (Nonunif [0; 1; 3]) (1 + 1) = 3.
Proof. split; [cbn; field|]. split; [cbn; field|]. split; reflexivity. Qed.
Lemma ex_C67 : exists v, in_cell exg [1; 1]%Z [3 / 4; 2] /\
  value_linear None exg [] (ex_sample (parabola [2; 6])) [3 / 4; 2] [] v /\
  v - parabola [2; 6] [3 / 4; 2] = linear_error exg [1; 1]%Z [2; 6] /\ linear_error exg [1; 1]%Z [2; 6] = 49 / 16.
Proof.
  destruct exg_nodes as (N1 & N2 & N3 & N4).
  assert (HC : coefs_ok 1 exg [] (ex_sample (parabola [2; 6]))) by (split; auto).
  destruct (have_values 1 None XLinear exg [] (ex_sample (parabola [2; 6])) [] exg_valid (or_introl eq_refl) HC (conj I I) eq_refl) as [F HF].
  assert (M : midpoint exg [1; 1]%Z = [3 / 4; 2]) by (unfold midpoint, exg; cbn [map2]; rewrite N1, N2, N3, N4; f_equal; [|f_equal]; field).
  assert (HI : in_cell exg [1; 1]%Z [3 / 4; 2]) by (unfold exg; cbn [in_cell]; rewrite N1, N2, N3, N4; repeat split; try (vm_compute; discriminate); lra).
  exists (F [3 / 4; 2]). split; [exact HI|].
  assert (HV : value_linear None exg [] (ex_sample (parabola [2; 6])) [3 / 4; 2] [] (F [3 / 4; 2])).
  { apply (proj2 (value_linear_at _ _ _ _ _ _ _)). now apply HF. }
  split; [exact HV|]. split.
  - rewrite <- M. refine (proj2 (linear_attained None exg [] (ex_sample (parabola [2; 6])) [1; 1]%Z [2; 6] [] _ exg_valid HC eq_refl _ eq_refl _ _ _)).
    + now rewrite M.
    + repeat constructor; lra.
    + intros idx _. cbn. now rewrite app_nil_r.
    + rewrite M. exact HV.
  - unfold exg; cbn [linear_error]; rewrite N1, N2, N3, N4. field.
Qed.

(** Two data arrays that differ by 1/10 at one node. *)
Definition exW' : arr R := mkArr [3; 4; 2]%Z (fun idx => acell exW idx + if list_eq_dec Z.eq_dec idx [1; 2; 1]%Z then 1 / 10 else 0).
Lemma ex_C68 : exists C C' v v', values_ok exu [2]%Z exW' /\
  (forall idx, inb (map gsize exu) idx = true -> Rabs (acell exW (idx ++ [1%Z]) - acell exW' (idx ++ [1%Z])) <= 1 / 10) /\
  filter_cubic exu exW None = Ok (VArr C, None) /\ filter_cubic exu exW' None = Ok (VArr C', None) /\
  value_cubic None exu [2]%Z C [1 / 3; 1 / 7] [1%Z] v /\ value_cubic (Some XConstant) exu [2]%Z C' [1 / 3; 1 / 7] [1%Z] v' /\
  Rabs (v - v') <= 5 / 8.
Proof.
  destruct ex_filter_hyps as (H1 & H2 & H3 & H4).
  assert (H4' : values_ok exu [2]%Z exW') by (split; [reflexivity|right; exists 2%Z; split; [reflexivity|lia]]).
  destruct (filter_total exu [2]%Z exW H1 H2 H3 H4) as [[C [E S]] _]. destruct (filter_total exu [2]%Z exW' H1 H2 H3 H4') as [[C' [E' S']] _].
  assert (HC : coefs_ok 3 exu [2]%Z C) by (split; [exact S|right; exists 2%Z; split; [reflexivity|lia]]).
  assert (HC' : coefs_ok 3 exu [2]%Z C') by (split; [exact S'|right; exists 2%Z; split; [reflexivity|lia]]).
  destruct (have_values 3 None XLinear exu [2]%Z C [1%Z] H1 (or_intror (conj eq_refl H2)) HC (conj I I) eq_refl) as [F HF].
  destruct (have_values 3 None XConstant exu [2]%Z C' [1%Z] H1 (or_intror (conj eq_refl H2)) HC' (conj I I) eq_refl) as [F' HF'].
  assert (HV : value_cubic None exu [2]%Z C [1 / 3; 1 / 7] [1%Z] (F [1 / 3; 1 / 7])) by (apply (proj2 (value_cubic_at _ _ _ _ _ _ _)); now apply HF).
  assert (HV' : value_cubic (Some XConstant) exu [2]%Z C' [1 / 3; 1 / 7] [1%Z] (F' [1 / 3; 1 / 7])) by (apply (proj2 (value_cubic_at _ _ _ _ _ _ _)); now apply HF').
  assert (D : forall idx, inb (map gsize exu) idx = true -> Rabs (acell exW (idx ++ [1%Z]) - acell exW' (idx ++ [1%Z])) <= 1 / 10).
  { intros idx _. unfold exW'. cbn [acell]. destruct (list_eq_dec Z.eq_dec (idx ++ [1%Z]) [1; 2; 1]%Z); apply Rabs_le; lra. }
  exists C, C', (F [1 / 3; 1 / 7]), (F' [1 / 3; 1 / 7]). repeat (split; [assumption|]).
  refine (Rle_trans _ _ _ (cubic_stable None (Some XConstant) exu [2]%Z exW exW' C C' (1 / 10) [1 / 3; 1 / 7] [1%Z] _ _ H1 H2 H3 H4 H4' eq_refl _ D E E' HV HV') _).
  - repeat constructor; cbn; unfold glo, ghi; cbn; lra.
  - cbn. lra.
Qed.

(** x^4 - 2 x^3 + x has a second derivative that is 0 at 0 and at 1. *)
Definition ex_quartic (p : list R) : R := let x := hd 0 p in x ^ 4 - 2 * x ^ 3 + x.
Lemma ex_C69 : along_axes fourth_within [Unif 0 1 5] [24] ex_quartic /\
  along_axes curvature_within exu [2; 6] (parabola [2; 6]) /\
  cubic_error (7 / 64) 4 [Unif 0 1 5] [24] = 21 / 2048 /\ cubic_error (1 / 2) 2 exu [2; 6] = 43 / 12.
Proof.
  split; [|split; [|split]].
  - split; [|intros; exact I]. intros p _. unfold ex_quartic; cbn [hd].
    exists (fun x => 4 * x ^ 3 - 6 * x ^ 2 + 1), (fun x => 12 * x ^ 2 - 12 * x), (fun x => 24 * x - 12), (fun _ => 24).
    split; [|unfold glo, ghi; cbn; split; field].
    intros x _. split; [|split; [|split; [|split]]]; try (apply is_derive_Reals; auto_derive; auto; ring).
    rewrite Rabs_right; lra.
  - assert (E : parabola [2; 6] = (fun x => 0 + parabola [2; 6] x)) by (apply FunctionalExtensionality.functional_extensionality; intros; ring).
    rewrite E. apply parabola_curvature; auto. repeat constructor; lra.
  - unfold cubic_error, step, glo, ghi; cbn. field.
  - unfold cubic_error, step, glo, ghi; cbn. field.
Qed.

(** Without the condition at the ends the fourth order is lost: f = x^2 has f'''' = 0 and
    nevertheless an error, here with two nodes. *)
Lemma fourth_order_needs_ends : exists a b n (V C : arr R) (f f1 f2 f3 f4 : R -> R) t v,
  let g := Unif a b n in
  valid_dim g /\ values_ok [g] [] V /\
  (forall x, derivable_pt_lim f x (f1 x) /\ derivable_pt_lim f1 x (f2 x) /\ derivable_pt_lim f2 x (f3 x) /\ derivable_pt_lim f3 x (f4 x) /\ f4 x = 0) /\
  (forall i, (0 <= i < n)%Z -> acell V [i] = f (gnode g i)) /\ in_dim g t /\
  filter_cubic [g] V None = Ok (VArr C, None) /\ value_cubic None [g] [] C [t] [] v /\ v - f t = 1 / 4.
Proof.
  set (V := mkArr [2%Z] (fun idx => match idx with [i] => IZR i | _ => 0 end)).
  assert (Hg : valid_dim (Unif 0 1 2)) by (split; [cbn; lia|cbn; lra]).
  assert (HV : values_ok [Unif 0 1 2] [] V) by (split; auto).
  destruct (filter_affine None [Unif 0 1 2] [] V (fun p => hd 0 p) [1 / 2] []) as [C [E H]].
  - constructor; auto.
  - constructor; [now intros []|constructor].
  - unfold supported_dim; cbn; lia.
  - exact HV.
  - reflexivity.
  - intros pre x y t post H. destruct pre as [|z pre]; cbn; [ring|]. cbn in H. rewrite app_length in H. cbn in H. lia.
  - intros [|i [|]] Hi; cbn in Hi; try discriminate; try (rewrite andb_false_r in Hi; discriminate). cbn. assert (i = 0 \/ i = 1)%Z as [->| ->] by lia; field.
  - reflexivity.
  - now left.
  - exists 0, 1, 2%Z, V, C, (fun x => x ^ 2), (fun x => 2 * x), (fun _ => 2), (fun _ => 0), (fun _ => 0), (1 / 2), (1 / 2).
    cbn zeta. split; [exact Hg|]. split; [exact HV|]. split.
    { intros x. repeat split; try (apply is_derive_Reals; auto_derive; auto; ring). }
    split. { intros i Hi. cbn. assert (i = 0 \/ i = 1)%Z as [->| ->] by lia; field. }
    split. { unfold in_dim, glo, ghi; cbn; lra. }
    split; [exact E|]. split; [exact H|]. lra.
Qed.

Lemma ex_C70 : exists C F F1 F2, filter_cubic [exl] exY None = Ok (VArr C, None) /\
  (forall t, 0 <= t <= 3 -> value_cubic None [exl] [] C [t] [] (F t)) /\
  twice_differentiable 0 3 F F1 F2 /\ twice_differentiable 0 3 (fun t => t ^ 2) (fun t => 2 * t) (fun _ => 2) /\
  (forall i, (0 <= i < 4)%Z -> (gnode exl i) ^ 2 = acell exY [i]) /\
  RInt (fun t => F2 t * F2 t) 0 3 < RInt (fun t => 2 * 2) 0 3.
Proof.
  destruct ex_C14 as (C & F & Hg & E & S & HF & _).
  destruct (filtered_C2_natural None 0 3 4 exY C F Hg eq_refl E HF) as (F1 & F2 & T & Za & Zb).
  assert (TG : twice_differentiable 0 3 (fun t => t ^ 2) (fun t => 2 * t) (fun _ => 2)).
  { assert (D0 : forall x, is_derive (fun t => t ^ 2) x (2 * x)) by (intros; auto_derive; auto; ring).
    assert (D1 : forall x, is_derive (fun t => 2 * t) x 2) by (intros; auto_derive; auto; ring).
    split; [intros; split; apply is_derive_Reals; auto|]. split; [apply (derive_slopes _ 0), D0|]. split; [apply (derive_slopes _ 0), D1|].
    split; [apply (derive_slopes _ 3), D0|]. split; [apply (derive_slopes _ 3), D1|]. intros x. apply continuity_pt_const. intros ? ?; reflexivity. }
  assert (HN : forall i, (0 <= i < 4)%Z -> (gnode exl i) ^ 2 = acell exY [i]).
  { intros i Hi. assert (i = 0 \/ i = 1 \/ i = 2 \/ i = 3)%Z as [->|[->|[->| ->]]] by lia; cbn; field. }
  exists C, F, F1, F2. repeat (split; [assumption|]).
  destruct (least_curvature None 0 3 4 exY C F F1 F2 (fun t => t ^ 2) (fun t => 2 * t) (fun _ => 2) Hg eq_refl E HF T TG HN) as (L & _ & _).
  assert (CC : forall x, continuous (fun t => 2 - F2 t) x).
  { intros x. apply cont_minus'; [apply continuous_const|]. destruct T as (_ & _ & _ & _ & _ & T). apply cont_of_pt, T. }
  assert (P : 0 <= RInt (fun t => (2 - F2 t) * (2 - F2 t)) 0 3).
  { apply RInt_ge_0; [lra|apply ex_int; intros; now apply cont_mult'|]. intros x _. pose proof (Rle_0_sqr (2 - F2 x)). unfold Rsqr in *. lra. }
  destruct (Req_dec (RInt (fun t => (2 - F2 t) * (2 - F2 t)) 0 3) 0) as [Z|Z]; [|lra]. exfalso.
  pose proof (positive_square (fun t => 2 - F2 t) 0 3 ltac:(lra) CC Z 0 ltac:(lra)). cbn beta in *. lra.
Qed.
