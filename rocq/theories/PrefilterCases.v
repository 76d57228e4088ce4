(** Concrete cases for the prefilter theorems. *)
From Coq Require Import ZArith List Bool Reals QArith Lia Lra PrimFloat.
From Verif Require Import Base BaseFacts SplineModel PrefilterModel Spec EvalRProps ExampleData EvalCases PrefilterProps.
Import ListNotations.
Open Scope Z_scope.

Definition exW : arr R := mkArr [3; 4; 2] (fun idx => match idx with [i; j; c] => IZR (i * i + 10 * j + 100 * c) | _ => 0%R end).
Definition exu' : list (gdim R) := [Unif 5%R 50%R 3; Unif 0%R (1 / 10)%R 4].
Definition exl : gdim R := Unif 0%R 3%R 4.
Definition exY : arr R := mkArr [4] (fun idx => match idx with [i] => IZR (i * i) | _ => 0%R end).
Definition qnodes : arr Q := mkArr [2; 2] (fun idx => match idx with
  | [0; 0] => 1%Q | [0; 1] => (- 1 # 3)%Q | [1; 0] => (1 # 2)%Q | [1; 1] => (1 # 3)%Q | _ => 0%Q end).
Definition qu' : list (gdim Q) := [Unif 5%Q 50%Q 3; Unif 0%Q (1 # 10)%Q 4].
Definition fgu : list (gdim float) := [Unif 0%float 1%float 3; Unif (-1)%float 1%float 2].
Definition fV : arr float := mkArr [3; 2] (fun idx => match idx with [i; j] => n_div (n_ofZ (i * i + 10 * j)) (n_ofZ 7) | _ => 0%float end).
Definition ex_bilinear2 := ex_bilinear.
Definition ex_sample2 (f : list R -> R) : arr R := mkArr [3; 4] (fun idx => f (node_at exu idx)).

Lemma exu_supported : supported_dim exu.
Proof. unfold supported_dim; cbn; lia. Qed.
Lemma exW_ok : values_ok exu [2] exW.
Proof. split; [reflexivity|]. right. exists 2. split; [reflexivity|lia]. Qed.
Lemma ex_filter_hyps : valid_grid exu /\ all_uniform exu /\ supported_dim exu /\ values_ok exu [2] exW.
Proof. auto using exu_valid, exu_uniform, exu_supported, exW_ok. Qed.

Lemma ex_C13 : exists C, filter_cubic exu exW None = Ok (VArr C, None) /\
  value_cubic None exu [2] C (node_at exu [2; 1]) [1] 114%R.
Proof.
  destruct ex_filter_hyps as (H1 & H2 & H3 & H4).
  exact (filter_interpolates None exu [2] exW [2; 1] [1] H1 H2 H3 H4 eq_refl eq_refl).
Qed.

Lemma exl_valid : valid_dim exl.
Proof. split; [cbn; lia|cbn; lra]. Qed.

Lemma ex_C14 : exists C F, valid_dim exl /\ filter_cubic [exl] exY None = Ok (VArr C, None) /\
  ashape C = [6] /\ (forall t, (0 <= t <= 3)%R -> value_cubic None [exl] [] C [t] [] (F t)) /\ F 2%R = 4%R.
Proof.
  pose proof exl_valid as Hg.
  assert (Hv : valid_grid [exl]) by (constructor; auto).
  assert (HU : all_uniform [exl]) by (constructor; auto; cbn; auto).
  assert (HS : supported_dim [exl]) by (unfold supported_dim; cbn; lia).
  assert (HV : values_ok [exl] [] exY) by (split; [reflexivity|now left]).
  destruct (filter_interpolates None [exl] [] exY [2] [] Hv HU HS HV eq_refl eq_refl) as [C [E H]].
  destruct (filter_total [exl] [] exY Hv HU HS HV) as [[C' [E' S']] _].
  rewrite E in E'. inversion E'; subst C'. cbn in S'.
  assert (HC : coefs_ok 3 [exl] [] C) by (split; [exact S'|now left]).
  destruct (have_values 3 None XLinear [exl] [] C [] Hv (or_intror (conj eq_refl HU)) HC (conj I I) eq_refl) as [F HF].
  exists C, (fun t => F [t]). split; auto. split; auto. split; auto. split.
  - intros t _. apply (proj2 (value_cubic_at _ _ _ _ _ _ _)). now apply HF.
  - apply (proj1 (value_cubic_at _ _ _ _ _ _ _)) in H.
    replace (node_at [exl] [2]) with [2%R] in H by (cbn; f_equal; lra).
    specialize (HF [2%R] eq_refl). apply value_at_none in HF; auto. 2: { right; auto. }
    apply value_at_none in H; auto. 2: { right; auto. }
    rewrite HF. cbn [default_mode] in H. rewrite <- H. cbn. lra.
Qed.

Lemma ex_C17 : valid_grid exu /\ valid_grid exu' /\ map gsize exu = map gsize exu' /\ exu <> exu' /\ values_ok exu [2] exW.
Proof.
  split; [apply exu_valid|]. split; [repeat constructor; cbn; try lia; lra|]. split; [reflexivity|].
  split; [|apply exW_ok]. intros E. inversion E. lra.
Qed.

Lemma ex_C18 : multi_affine 2 ex_bilinear2 /\
  exists C, filter_cubic exu (ex_sample2 ex_bilinear2) None = Ok (VArr C, None) /\
    value_cubic None exu [] C [7; -3]%R [] (ex_bilinear2 [7; -3]%R).
Proof.
  split; [exact ex_bilinear_affine|].
  apply filter_affine; auto using exu_valid, exu_uniform, exu_supported, ex_bilinear_affine.
  - split; auto.
  - intros idx Hi. cbn. now rewrite app_nil_r.
Qed.

Lemma ex_C20 : exists F,
  forall t, (-1 <= t <= 1)%R -> value_cubic None exu [] exK ([1 / 3] ++ t :: [])%R [] (F t).
Proof.
  destruct (have_values 3 None XLinear exu [] exK [] exu_valid ex_kg exK_ok (conj I I) eq_refl) as [F HF].
  exists (fun t => F [1 / 3; t]%R). intros t _. apply (proj2 (value_cubic_at _ _ _ _ _ _ _)). now apply HF.
Qed.
