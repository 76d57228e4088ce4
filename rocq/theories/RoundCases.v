(** Concrete cases for C72. *)
From Coq Require Import ZArith List Bool Reals Lia Lra PrimFloat.
From Flocq Require Import Core.
From Verif Require Import Base SplineModel Spec SpecRound RoundV.
Import ListNotations.
Open Scope Z_scope.

(** 30 nodes of [0, 7]; the coefficients are 0, the last is 1. *)
Definition rlast {T} `{Num T} : arr T := mkArr [30] (fun idx => match idx with [29] => n_ofZ 1 | _ => n_ofZ 0 end).
Lemma case_last_float : exists v, eval_linear [Unif 0%float 7%float 30] rlast (P1 [7%float]) None None = Ok (VNum v, None) /\ PrimFloat.ltb 1 v = true.
Proof. eexists. split; vm_compute; reflexivity. Qed.

(** A grid of two dimensions, one of them not uniform, and the point (1/3, 5/2). *)
Definition rgrid : list (gdim R) := [Unif 0%R 1%R 4; Nonunif [0; 2; 3]%R].
Definition rC : arr R := mkArr [4; 3] (fun idx => match idx with [i; j] => IZR (i - j) | _ => 0%R end).
Definition rpt : list R := [/ 3; 5 / 2]%R.
Open Scope R_scope.
Lemma case_rhyps : valid_grid rgrid /\ kgrid_ok 1 rgrid /\ coefs_ok 1 rgrid [] rC /\ in_domain rgrid rpt /\
  List.Forall (resolved (bpow radix2 (- 53))) rgrid /\
  (forall idx, inb (map (csize 1) rgrid) idx = true -> Rabs (acell rC (idx ++ [])) <= 3) /\
  grid_error 1 (bpow radix2 (- 53)) rgrid <= 69 * bpow radix2 (- 53).
Proof.
  assert (V : valid_grid rgrid).
  { constructor; [split; [cbn; lia|cbn; lra]|]. constructor; [|constructor]. split; [change (2 <= 3)%Z; lia|]. intros i Hi. change (0 <= i < 3 - 1)%Z in Hi. assert (i = 0 \/ i = 1)%Z as [-> | ->] by lia; [change (0 < 2)|change (2 < 3)]; lra. }
  split; [exact V|]. split; [left; reflexivity|]. split; [split; [reflexivity|auto]|]. split.
  { unfold in_domain, rgrid, rpt. constructor; [|constructor; [|constructor]]; unfold in_dim, glo, ghi.
    - cbn [gnode gsize]. cbn [Z.sub Z.add Z.opp Z.pos_sub Pos.pred_double]. lra.
    - change (0 <= 5 / 2 <= 3). lra. }
  assert (B : bpow radix2 (- 53) <= / 1000000000).
  { change (/ 1000000000) with (/ IZR 1000000000). cbn. apply Rinv_le; lra. }
  pose proof (bpow_gt_0 radix2 (- 53)) as P. set (e := bpow radix2 (- 53)) in *.
  split. { constructor; [cbn; lra|]. constructor; [exact I|constructor]. } split.
  - intros idx H. change (inb [4; 3]%Z idx = true) in H. destruct idx as [|i [|j [|]]]; cbn in H; try discriminate; try (rewrite ?andb_false_r in H; discriminate).
    cbn. rewrite <- abs_IZR. apply IZR_le. rewrite !andb_true_iff in H. lia.
  - unfold grid_error, rgrid, dim_error. cbn [fold_right Z.eqb Pos.eqb]. nra.
Qed.
