(** Concrete cases for the theorems of PropsShape. *)
From Coq Require Import ZArith List Bool Reals Lia Lra ZifyBool.
From Coquelicot Require Import Coquelicot.
From Verif Require Import Base BaseFacts SplineModel PrefilterModel Spec SpecError SpecShape EvalProps EvalValue EvalR EvalRProps ExampleData EvalCases PrefilterProps PrefilterCases ErrorR CubicError ErrorCases ShapeR DecayR.
Import ListNotations.
Open Scope R_scope.

Lemma sample_ok f : coefs_ok 1 exg [] (ex_sample f).
Proof. split; auto. Qed.
Lemma sample_value f pt : length pt = 2%nat -> exists v, value_linear None exg [] (ex_sample f) pt [] v.
Proof.
  intros H. destruct (have_values 1 None XLinear exg [] (ex_sample f) [] exg_valid (or_introl eq_refl) (sample_ok f) (conj I I) eq_refl) as [F HF].
  exists (F pt). apply (proj2 (value_linear_at _ _ _ _ _ _ _)). now apply HF.
Qed.

Definition ex_up (p : list R) : R := ex_bilinear p + 1 / 2.
Lemma ex_C73 : exists v v', in_domain exg [3 / 4; 2] /\
  (forall idx, inb (map gsize exg) idx = true -> acell (ex_sample ex_bilinear) (idx ++ []) <= acell (ex_sample ex_up) (idx ++ [])) /\
  value_linear None exg [] (ex_sample ex_bilinear) [3 / 4; 2] [] v /\ value_linear None exg [] (ex_sample ex_up) [3 / 4; 2] [] v' /\
  v <= v' /\ Rabs (v - v') <= 1 / 2.
Proof.
  destruct (sample_value ex_bilinear [3 / 4; 2] eq_refl) as [v Hv]. destruct (sample_value ex_up [3 / 4; 2] eq_refl) as [v' Hv'].
  assert (D : in_domain exg [3 / 4; 2]) by (apply exg_dom; lra).
  assert (L : forall idx, acell (ex_sample ex_bilinear) (idx ++ []) - acell (ex_sample ex_up) (idx ++ []) = - (1 / 2)).
  { intros idx. cbn. unfold ex_up. ring. }
  assert (L' : forall idx, acell (ex_sample ex_bilinear) (idx ++ []) <= acell (ex_sample ex_up) (idx ++ [])) by (intros idx; pose proof (L idx); lra).
  exists v, v'. split; auto. split; [intros; apply L'|]. split; auto. split; auto. split.
  - refine (linear_monotone None exg [] _ _ [3 / 4; 2] [] v v' exg_valid (sample_ok _) (sample_ok _) eq_refl eq_refl (or_introl D) _ Hv Hv'). intros; apply L'.
  - refine (linear_nonexpansive None exg [] _ _ (1 / 2) [3 / 4; 2] [] v v' exg_valid (sample_ok _) (sample_ok _) eq_refl eq_refl (or_introl D) _ Hv Hv').
    intros idx _. rewrite L. apply Rabs_le. lra.
Qed.

Lemma ex_C74 : exists u v w, increasing_along [Unif 0 1 3] (Nonunif [0; 1; 3]) [] (ex_sample (parabola [2; 6])) [] /\
  convex_along [Unif 0 1 3] (Nonunif [0; 1; 3]) [] (ex_sample (parabola [2; 6])) [] /\
  value_linear None exg [] (ex_sample (parabola [2; 6])) [3 / 4; 1 / 2] [] u /\ value_linear None exg [] (ex_sample (parabola [2; 6])) [3 / 4; 5 / 2] [] v /\
  value_linear None exg [] (ex_sample (parabola [2; 6])) [3 / 4; 3 / 2] [] w /\ u <= v /\ w <= u / 2 + v / 2.
Proof.
  set (C := ex_sample (parabola [2; 6])).
  assert (N0 : gnode (Nonunif [0; 1; 3]) 0 = 0) by reflexivity.
  assert (N1 : gnode (Nonunif [0; 1; 3]) 1 = 1 /\ gnode (Nonunif [0; 1; 3]) (0 + 1) = 1) by (split; reflexivity). destruct N1 as [N1 N1'].
  assert (N2 : gnode (Nonunif [0; 1; 3]) (1 + 1) = 3 /\ gnode (Nonunif [0; 1; 3]) (0 + 2) = 3) by (split; reflexivity). destruct N2 as [N2 N2'].
  assert (I : increasing_along [Unif 0 1 3] (Nonunif [0; 1; 3]) [] C []).
  { intros i1 i i2 H1 Hi H2. destruct i1 as [|k [|]]; try (cbn in H1; lia). destruct i2; [|discriminate]. cbn in Hi. unfold zlen in Hi; cbn in Hi.
    rewrite !app_nil_r. unfold C, ex_sample, parabola, exg. cbn [acell app]; unfold node_at; cbn [map2 map fold_right].
    assert (i = 0 \/ i = 1)%Z as [->| ->] by lia; rewrite ?N0, ?N1, ?N2, ?N1', ?N2'; lra. }
  assert (X : convex_along [Unif 0 1 3] (Nonunif [0; 1; 3]) [] C []).
  { intros i1 i i2 H1 Hi H2. destruct i1 as [|k [|]]; try (cbn in H1; lia). destruct i2; [|discriminate]. cbn in Hi. unfold zlen in Hi; cbn in Hi.
    rewrite !app_nil_r. unfold C, ex_sample, parabola, exg. cbn [acell app]; unfold node_at; cbn [map2 map fold_right].
    assert (i = 0)%Z as -> by lia. rewrite ?N0, ?N1, ?N2, ?N1', ?N2'. lra. }
  destruct (sample_value (parabola [2; 6]) [3 / 4; 1 / 2] eq_refl) as [u Hu]. destruct (sample_value (parabola [2; 6]) [3 / 4; 5 / 2] eq_refl) as [v Hv].
  destruct (sample_value (parabola [2; 6]) [3 / 4; 3 / 2] eq_refl) as [w Hw].
  exists u, v, w. do 5 (split; [assumption|]).
  assert (D1 : in_domain [Unif 0 1 3] [3 / 4]) by (destruct exg_bounds as (A & B & _ & _); constructor; [unfold in_dim; rewrite A, B; lra|constructor]).
  split.
  - refine (linear_increasing None [Unif 0 1 3] (Nonunif [0; 1; 3]) [] [] C [3 / 4] [] [] (1 / 2) (5 / 2) u v exg_valid (sample_ok _) eq_refl D1 (Forall2_nil _) (or_introl _) I _ Hu Hv); [discriminate|lra].
  - assert (Hw' : value_linear None exg [] C [3 / 4; (1 - 1 / 2) * (1 / 2) + 1 / 2 * (5 / 2)] [] w) by (replace ((1 - 1 / 2) * (1 / 2) + 1 / 2 * (5 / 2)) with (3 / 2) by field; exact Hw).
    pose proof (linear_convex None [Unif 0 1 3] (Nonunif [0; 1; 3]) [] [] C [3 / 4] [] [] (1 / 2) (5 / 2) (1 / 2) u v w exg_valid (sample_ok _) eq_refl D1 (Forall2_nil _) (or_introl eq_refl) X ltac:(lra) Hu Hv Hw'). lra.
Qed.

Lemma ex_C75 : valid_grid [Nonunif [0; 1 / 2; 1]; Nonunif [0; 1; 3]] /\ Forall2 same_nodes exg [Nonunif [0; 1 / 2; 1]; Nonunif [0; 1; 3]] /\
  value_linear None [Nonunif [0; 1 / 2; 1]; Nonunif [0; 1; 3]] [2]%Z exV [1; 3] [1%Z] 124.
Proof.
  assert (G : valid_grid [Nonunif [0; 1 / 2; 1]; Nonunif [0; 1; 3]]).
  { pose proof exg_valid as VV; constructor; [|inversion VV; assumption]. split; [vm_compute; discriminate|].
    intros i Hi. change (0 <= i < 2)%Z in Hi. assert (i = 0 \/ i = 1)%Z as [->| ->] by lia; [change (0 < 1 / 2)|change (1 / 2 < 1)]; lra. }
  assert (S : Forall2 same_nodes exg [Nonunif [0; 1 / 2; 1]; Nonunif [0; 1; 3]]).
  { constructor; [|constructor; [split; auto|constructor]]. split; [reflexivity|]. intros i Hi. cbn [gsize] in Hi.
    assert (i = 0 \/ i = 1 \/ i = 2)%Z as Hc by lia. destruct Hc as [->|[->| ->]]; rewrite gnode_unif; [change (0 + 0 * ((1 - 0) / (3 - 1)) = 0)|change (0 + 1 * ((1 - 0) / (3 - 1)) = 1 / 2)|change (0 + 2 * ((1 - 0) / (3 - 1)) = 1)]; field. }
  split; auto. split; auto.
  apply (linear_same_nodes None exg _ [2%Z] exV [1; 3] [1%Z] 124 exg_valid G S exV_ok eq_refl eq_refl). exact ex_C01.
Qed.

Lemma ex_C76 : exists v w,
  value_at 3 None XLinear exu [] exK [7; 1 / 3] [] v /\
  value_at 3 None XLinear [Unif 5 7 3; Unif (-100) 100 4] [] exK [19; 100 / 3] [] v /\
  value_at 3 (Some [[0; 0]; [1; 1]]%Z) XLinear exu [] exK [7; 1 / 3] [1%Z] w /\
  value_at 3 (Some [[0; 0]; [1; 1]]%Z) XLinear [Unif 5 7 3; Unif (-100) 100 4] [] exK [19; 100 / 3] [1%Z] (w / 200).
Proof.
  assert (D : diff_ok 3 exu (Some [[0; 0]; [1; 1]]%Z)) by (apply ex_d; [discriminate|repeat constructor; lia]).
  destruct (have_values 3 None XLinear exu [] exK [] exu_valid ex_kg exK_ok (diff_ok_none _ _) eq_refl) as [F HF].
  destruct (have_values 3 (Some [[0; 0]; [1; 1]]%Z) XLinear exu [] exK [1%Z] exu_valid ex_kg exK_ok D eq_refl) as [G HG].
  assert (E : map2 rescale [(2, 5); (100, 0)] exu = [Unif 5 7 3; Unif (-100) 100 4]).
  { unfold exu, rescale. cbn [map2 fst snd]. f_equal; [|f_equal]; f_equal; ring. }
  assert (P : map2 rescale_pt [(2, 5); (100, 0)] [7; 1 / 3] = [19; 100 / 3]).
  { unfold rescale_pt. cbn [map2 fst snd]. f_equal; [|f_equal]; field. }
  assert (S : Forall2 (fun st (g : gdim R) => 0 < fst st) [(2, 5); (100, 0)] exu) by (repeat constructor; cbn; lra).
  exists (F [7; 1 / 3]), (G [7; 1 / 3]). split; [now apply HF|]. split; [|split; [now apply HG|]].
  - rewrite <- E, <- P. apply (value_rescale 3 XLinear [(2, 5); (100, 0)] exu [] exK [7; 1 / 3] [] _ exu_valid ex_kg exK_ok eq_refl eq_refl S). now apply HF.
  - rewrite <- E, <- P. replace (G [7; 1 / 3] / 200) with (G [7; 1 / 3] / unit_factor [(2, 5); (100, 0)] [1; 1]%Z) by (f_equal; cbn [unit_factor fst]; rewrite !powerRZ_1; ring).
    apply (gradient_rescale XLinear [(2, 5); (100, 0)] exu [] exK [7; 1 / 3] [[0; 0]; [1; 1]]%Z 1 [1; 1]%Z [] (G [7; 1 / 3]) exu_valid exu_uniform exK_ok D eq_refl eq_refl eq_refl S). now apply HG.
Qed.

Definition exW_t : arr R := mkArr [4; 3; 2]%Z (fun idx => match idx with [j; i; c] => IZR (i * i + 10 * j + 100 * c) | _ => 0 end).
Definition exu_t : list (gdim R) := [Unif (-1) 1 4; Unif 0 1 3].
Lemma ex_C77 : transposed gsize [] (Unif 0 1 3) (Unif (-1) 1 4) [] exW exW_t [1%Z] /\
  exists C C' v, filter_cubic exu exW None = Ok (VArr C, None) /\ filter_cubic exu_t exW_t None = Ok (VArr C', None) /\
  value_cubic None exu [2]%Z C [1 / 3; 1 / 7] [1%Z] v /\ value_cubic None exu_t [2]%Z C' [1 / 7; 1 / 3] [1%Z] v.
Proof.
  assert (T : transposed gsize [] (Unif 0 1 3) (Unif (-1) 1 4) [] exW exW_t [1%Z]).
  { intros i1 i j i2 H1 Hi Hj H2. destruct i1; [|discriminate]. destruct i2; [|discriminate]. reflexivity. }
  split; auto.
  destruct ex_filter_hyps as (H1 & H2 & H3 & H4).
  pose proof (valid_exchange [] _ _ [] H1) as H1'. assert (H2' : all_uniform exu_t) by (repeat constructor; cbn; auto).
  assert (H3' : supported_dim exu_t) by (unfold supported_dim; cbn; lia).
  assert (H4' : values_ok exu_t [2]%Z exW_t) by (split; [reflexivity|right; exists 2%Z; split; [reflexivity|lia]]).
  destruct (filter_total exu [2]%Z exW H1 H2 H3 H4) as [[C [E S]] _]. destruct (filter_total exu_t [2]%Z exW_t H1' H2' H3' H4') as [[C' [E' S']] _].
  assert (HC : coefs_ok 3 exu [2]%Z C) by (split; [exact S|right; exists 2%Z; split; [reflexivity|lia]]).
  assert (HC' : coefs_ok 3 exu_t [2]%Z C') by (split; [exact S'|right; exists 2%Z; split; [reflexivity|lia]]).
  destruct (have_values 3 None XLinear exu [2]%Z C [1%Z] H1 (or_intror (conj eq_refl H2)) HC (conj I I) eq_refl) as [F HF].
  destruct (have_values 3 None XLinear exu_t [2]%Z C' [1%Z] H1' (or_intror (conj eq_refl H2')) HC' (conj I I) eq_refl) as [F' HF'].
  assert (HV : value_cubic None exu [2]%Z C [1 / 3; 1 / 7] [1%Z] (F [1 / 3; 1 / 7])) by (apply (proj2 (value_cubic_at _ _ _ _ _ _ _)); now apply HF).
  assert (HV' : value_cubic None exu_t [2]%Z C' [1 / 7; 1 / 3] [1%Z] (F' [1 / 7; 1 / 3])) by (apply (proj2 (value_cubic_at _ _ _ _ _ _ _)); now apply HF').
  exists C, C', (F [1 / 3; 1 / 7]). do 3 (split; [assumption|]).
  assert (HX : in_dim (Unif 0 1 3) (1 / 3)) by (unfold in_dim, glo, ghi; cbn; lra).
  assert (HY : in_dim (Unif (-1) 1 4) (1 / 7)) by (unfold in_dim, glo, ghi; cbn; lra).
  rewrite (cubic_exchange None [] (Unif 0 1 3) (Unif (-1) 1 4) [] [2]%Z exW exW_t C C' [] (1 / 3) (1 / 7) [] [1%Z] _ (F' [1 / 7; 1 / 3]) H1 H2 H3 H4 H4' eq_refl (Forall2_nil _) HX HY (Forall2_nil _) T E E' HV HV').
  exact HV'.
Qed.

Lemma ex_C78 : exists F, (forall q, length q = length exu -> value_at 3 (Some [[0; 0]; [1; 1]]%Z) XLinear exu [] exK q [1%Z] (F q)) /\
  continuous_at F [1 / 2; 1 / 3].
Proof.
  assert (D : diff_ok 3 exu (Some [[0; 0]; [1; 1]]%Z)) by (apply ex_d; [discriminate|repeat constructor; lia]).
  destruct (have_values 3 (Some [[0; 0]; [1; 1]]%Z) XLinear exu [] exK [1%Z] exu_valid ex_kg exK_ok D eq_refl) as [G HG].
  exists G. split; auto.
  apply (derivatives_continuous XLinear exu [] exK [[0; 0]; [1; 1]]%Z 1 [1; 1]%Z [] G exu_valid exu_uniform exK_ok D eq_refl eq_refl); auto. discriminate.
Qed.

Definition ex_line : list (gdim R) := [Unif 0 20 21].
Definition ex_bump (s : R) : arr R := mkArr [21]%Z (fun idx => if list_eq_dec Z.eq_dec idx [20%Z] then s else 0).
Lemma ex_C79 : exists C C' v v', values_ok ex_line [] (ex_bump 0) /\ values_ok ex_line [] (ex_bump 1) /\
  (forall idx, inb (map gsize ex_line) idx = true -> near_node 10 ex_line [10] idx -> acell (ex_bump 0) (idx ++ []) = acell (ex_bump 1) (idx ++ [])) /\
  filter_cubic ex_line (ex_bump 0) None = Ok (VArr C, None) /\ filter_cubic ex_line (ex_bump 1) None = Ok (VArr C', None) /\
  value_cubic None ex_line [] C [10] [] v /\ value_cubic None ex_line [] C' [10] [] v' /\ Rabs (v - v') <= 6 / 1024.
Proof.
  assert (H1 : valid_grid ex_line) by (repeat constructor; cbn; try lia; lra).
  assert (H2 : all_uniform ex_line) by (repeat constructor; cbn; auto). assert (H3 : supported_dim ex_line) by (unfold supported_dim; cbn; lia).
  assert (HV : forall s, values_ok ex_line [] (ex_bump s)) by (intros; split; auto).
  assert (N : forall idx, inb (map gsize ex_line) idx = true -> near_node 10 ex_line [10] idx -> acell (ex_bump 0) (idx ++ []) = acell (ex_bump 1) (idx ++ [])).
  { intros idx Hi Hn. rewrite app_nil_r. unfold ex_bump. cbn [acell]. destruct (list_eq_dec Z.eq_dec idx [20%Z]) as [->|]; auto. exfalso.
    cbn [near_node ex_line] in Hn. destruct Hn as [Hn _]. unfold step, glo, ghi in Hn. cbn in Hn. apply Rabs_lt_between in Hn. lra. }
  assert (K : forall s, exists C v, filter_cubic ex_line (ex_bump s) None = Ok (VArr C, None) /\ value_cubic None ex_line [] C [10] [] v).
  { intros s. destruct (filter_total ex_line [] (ex_bump s) H1 H2 H3 (HV s)) as [[C [E S]] _].
    assert (HC : coefs_ok 3 ex_line [] C) by (split; auto).
    destruct (have_values 3 None XLinear ex_line [] C [] H1 (or_intror (conj eq_refl H2)) HC (conj I I) eq_refl) as [F HF].
    exists C, (F [10]). split; auto. apply (proj2 (value_cubic_at _ _ _ _ _ _ _)). now apply HF. }
  destruct (K 0) as (C & v & E & Hv). destruct (K 1) as (C' & v' & E' & Hv').
  exists C, C', v, v'. split; auto. split; auto. do 5 (split; [assumption|]).
  refine (Rle_trans _ _ _ (cubic_local None None ex_line [] _ _ C C' 10 1 [10] [] v v' H1 H2 H3 (HV 0) (HV 1) eq_refl _ _ N E E' Hv Hv') _).
  - repeat constructor; unfold glo, ghi; cbn; lra.
  - intros idx _. unfold ex_bump. cbn [acell]. destruct (list_eq_dec _ _ _); apply Rabs_le; lra.
  - cbn. lra.
Qed.
