(** The statements about basis_splines.py in terms of calls, and concrete cases. *)
From Coq Require Import ZArith List Bool Reals QArith Lia Lra Psatz ZifyBool.
From Coquelicot Require Import Coquelicot.
From Verif Require Import Base BaseFacts SplineModel Spec EvalR RSum EvalExact EvalRProps ExampleData
  BasisModel SpecBasis BasisProps BasisCubic.
Import ListNotations.
Open Scope R_scope.

Lemma B_is_bspline p u i x : increasing u -> (0 <= i)%Z -> (i + Z.of_nat p + 1 < zlen u)%Z ->
  B p u i x = Ok (bspline (knot u) p i x).
Proof.
  intros Hu Hi Hl. rewrite B_ok by auto. f_equal. apply (Br_bspline _ 0 (zlen u - 1)); try lia. now apply increasing_incr.
Qed.

Lemma B_support_sign p u i x : increasing u -> (0 <= i)%Z -> (i + Z.of_nat p + 1 < zlen u)%Z ->
  exists v, B p u i x = Ok v /\ 0 <= v /\
    (knot u i < x < knot u (i + Z.of_nat p + 1) -> 0 < v) /\
    (x < knot u i \/ knot u (i + Z.of_nat p + 1) <= x -> v = 0).
Proof.
  intros Hu Hi Hl. exists (Br (knot u) p i x). split; [now apply B_ok|]. apply increasing_incr in Hu.
  destruct (Br_pos _ _ _ Hu p i x ltac:(lia) ltac:(lia)) as [H1 H2]. split; auto. split; auto.
  intros Hx. apply (Br_outside _ _ _ Hu); auto; lia.
Qed.

Lemma sum_list_zsum n (f : Z -> R) : fold_right Rplus 0 (map f (zrange n)) = zsum n f.
Proof.
  destruct (Z_lt_le_dec n 0) as [L|L].
  - rewrite zsum_0 by lia. unfold zrange. replace (Z.to_nat n) with O by lia. reflexivity.
  - revert n L. apply (zsum_ind (fun n => fold_right Rplus 0 (map f (zrange n)) = zsum n f)).
    + rewrite zsum_0 by lia. reflexivity.
    + intros n Hn IH. rewrite zsum_S by lia. rewrite <- IH. unfold zrange.
      replace (Z.to_nat (n + 1)) with (S (Z.to_nat n)) by lia. rewrite seq_S, !map_app. cbn.
      replace (Z.of_nat (Z.to_nat n)) with n by lia.
      generalize (map f (map Z.of_nat (seq 0 (Z.to_nat n)))). intros l. induction l; cbn; lra.
Qed.

Lemma map2_map_map {A} (f g : A -> R) l : map2 Rmult (map f l) (map g l) = map (fun a => f a * g a) l.
Proof. induction l; cbn; auto. now f_equal. Qed.

Lemma B_all u p x : increasing u ->
  mapM (fun i => B p u i x) (zrange (zlen u - Z.of_nat p - 1)) =
  Ok (map (fun i => Br (knot u) p i x) (zrange (zlen u - Z.of_nat p - 1))).
Proof.
  intros Hu. apply mapM_all_ok. intros i Hi. apply zrange_In in Hi. apply B_ok; auto; lia.
Qed.

Lemma B_partition p u x : increasing u -> (2 * Z.of_nat p + 1 < zlen u)%Z ->
  knot u (Z.of_nat p) <= x < knot u (zlen u - 1 - Z.of_nat p) ->
  exists vs, mapM (fun i => B p u i x) (zrange (zlen u - Z.of_nat p - 1)) = Ok vs /\ fold_right Rplus 0 vs = 1.
Proof.
  intros Hu Hl Hx. eexists. split; [now apply B_all|]. rewrite sum_list_zsum. apply increasing_incr in Hu.
  rewrite <- (partition (knot u) 0 (zlen u - 1) x Hu p (Z.of_nat p) (zlen u - 1 - Z.of_nat p)) by lia || lra.
  replace (zlen u - 1 - Z.of_nat p - Z.of_nat p + Z.of_nat p)%Z with (zlen u - Z.of_nat p - 1)%Z by lia.
  apply zsum_ext. intros i Hi. f_equal. lia.
Qed.

Lemma B_marsden p u x t : increasing u -> (2 * Z.of_nat p + 1 < zlen u)%Z ->
  knot u (Z.of_nat p) <= x < knot u (zlen u - 1 - Z.of_nat p) ->
  exists vs, mapM (fun i => B p u i x) (zrange (zlen u - Z.of_nat p - 1)) = Ok vs /\
    fold_right Rplus 0 (map2 Rmult (map (fun i => dual (knot u) i t p) (zrange (zlen u - Z.of_nat p - 1))) vs) = (x - t) ^ p.
Proof.
  intros Hu Hl Hx. eexists. split; [now apply B_all|]. rewrite map2_map_map, sum_list_zsum. apply increasing_incr in Hu.
  rewrite <- (marsden (knot u) 0 (zlen u - 1) x t Hu p (Z.of_nat p) (zlen u - 1 - Z.of_nat p)) by lia || lra.
  replace (zlen u - 1 - Z.of_nat p - Z.of_nat p + Z.of_nat p)%Z with (zlen u - Z.of_nat p - 1)%Z by lia.
  apply zsum_ext. intros i Hi. now replace (Z.of_nat p - Z.of_nat p + i)%Z with i by lia.
Qed.

Lemma B_derivative p u i x (f : R -> R) b0 b1 : increasing u -> (0 <= i)%Z -> (i + Z.of_nat p + 2 < zlen u)%Z ->
  (1 <= p)%nat \/ ~ In x u ->
  (forall y, B (S p) u i y = Ok (f y)) -> B p u i x = Ok b0 -> B p u (i + 1) x = Ok b1 ->
  is_derive f x (INR (S p) * (b0 / (knot u (i + Z.of_nat p + 1) - knot u i)
                              - b1 / (knot u (i + Z.of_nat p + 2) - knot u (i + 1)))).
Proof.
  intros Hu Hi Hl Hx Hf H0 H1. rewrite B_is_bspline in H0, H1 by (auto; lia). inversion H0. inversion H1.
  apply (is_derive_ext (bspline (knot u) (S p) i)).
  { intros y. specialize (Hf y). rewrite B_is_bspline in Hf by (auto; lia). inversion Hf. reflexivity. }
  apply (bspline_derive (knot u) 0 (zlen u - 1)); try lia; [now apply increasing_incr|].
  destruct Hx as [Hx|Hx]; auto. right. intros m Hm E. apply Hx. rewrite E. unfold knot. apply nth_In. unfold zlen in *. lia.
Qed.

Lemma eval_cubic_is_spline xm grid comps C pt suf :
  valid_grid (unif_grid grid) -> coefs_ok 3 (unif_grid grid) comps C -> inb comps suf = true -> in_domain (unif_grid grid) pt ->
  value_at 3 None xm (unif_grid grid) comps C pt suf (tensor_spline grid pt (fun idx => acell C (idx ++ suf))).
Proof.
  intros Hv HC Hs Hd.
  assert (Hk : kgrid_ok 3 (unif_grid grid)).
  { right. split; auto. clear. induction grid as [|[[a b] n] grid IH]; constructor; auto. }
  apply value_at_none; auto using in_domain_length. rewrite xpoint_inside by auto. now rewrite VR3_tensor.
Qed.

(** *** Concrete cases *)
Lemma increasing_case : increasing [0; 1; 3; 4; 7; 9].
Proof.
  intros i H0 H1. unfold zlen in H1. cbn in H1.
  assert (C : (i = 0 \/ i = 1 \/ i = 2 \/ i = 3 \/ i = 4)%Z) by lia.
  destruct C as [->|[->|[->|[->| ->]]]]; unfold knot; simpl; lra.
Qed.
Definition u_case : list Q := [0; 1; 3; 4; 7; 9]%Q.
Lemma B_values_case : mapM (fun i => B 2 u_case i (7 # 2)%Q) [0; 1; 2]%Z = Ok [(1 # 12)%Q; (41 # 48)%Q; (1 # 16)%Q].
Proof. vm_compute. reflexivity. Qed.

(** A repeated knot: the recursion divides by zero. *)
Lemma B_repeated p u i x : (0 <= i)%Z -> (i + Z.of_nat (S p) + 1 < zlen u)%Z -> knot u i = knot u (i + 1) ->
  B (S p) u i x = Err ZeroDivErr.
Proof.
  revert i. induction p as [|p IH]; intros i Hi Hl E.
  - cbn [B]. rewrite !pyget_knot by lia. cbn [bind]. replace (i + Z.of_nat 1)%Z with (i + 1)%Z by lia. rewrite <- E.
    unfold divE. replace (n_is0 (n_sub (knot u i) (knot u i))) with true; auto.
    cbn. unfold Reqb0. symmetry. apply Raux.Req_bool_true. ring.
  - remember (S p) as q. cbn [B]. rewrite !pyget_knot by lia. cbn [bind].
    unfold divE at 1. destruct (n_is0 _); cbn [bind]; auto. rewrite IH by (auto; lia). reflexivity.
Qed.
Lemma repeated_case : (knot [0; 0; 1; 2] 0 = knot [0; 0; 1; 2] (0 + 1) /\ B 2 [0; 0; 1; 2] 0 (/ 2) = Err ZeroDivErr)%type.
Proof. split; [reflexivity|]. apply B_repeated; try reflexivity; try lia. Qed.

Lemma cubic_case : (valid_grid (unif_grid [(0, 1, 3%Z); (0, 2, 2%Z)]) /\ coefs_ok 3 (unif_grid [(0, 1, 3%Z); (0, 2, 2%Z)]) [] (mkArr [5; 4]%Z (fun idx => IZR (nth 0 idx 0%Z))) /\ in_domain (unif_grid [(0, 1, 3%Z); (0, 2, 2%Z)]) [/ 3; 2])%type.
Proof.
  split; [|split].
  - repeat constructor; cbn; try lia; lra.
  - split; auto.
  - repeat constructor; unfold glo, ghi; cbn; lra.
Qed.
