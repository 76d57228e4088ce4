(** Concrete data for the examples of PropsComplete. *)
From Coq Require Import ZArith List Bool Reals Lia Lra Psatz QArith.
From Verif Require Import Base BaseFacts RSum CompleteModel SpecComplete CompleteGeneric CompleteLoops CompleteProps CompleteFit.
Import ListNotations.
Open Scope Z_scope.

Definition exs : arr R := mkArr [2; 1] (fun idx => IZR (nth 0 idx 0)).
Definition exx : arr R := mkArr [2] (fun idx => IZR (3 + 2 * nth 0 idx 0)).
Definition exc0 : arr R := mkArr [2] (fun idx => if nth 0 idx 0 =? 0 then 3%R else 2%R).
(** Solves the 2x2 system with rows (1,0), (1,1). *)
Definition exlstsq (Phi x : arr R) : res (arr R) :=
  Ok (mkArr [2] (fun idx => if nth 0 idx 0 =? 0 then acell x [0] else Rminus (acell x [1]) (acell x [0]))).

Lemma tup0 : tup 1 1 0 = []. Proof. vm_compute. reflexivity. Qed.
Lemma tup1 : tup 1 1 1 = [0]. Proof. vm_compute. reflexivity. Qed.
Lemma ex_design : exists P, complete_polynomial (atranspose exs) 1 = Ok P /\ ashape (atranspose P) = [2; 2] /\
  forall k, 0 <= k < 2 -> acell (atranspose P) [k; 0] = 1%R /\ acell (atranspose P) [k; 1] = IZR k.
Proof.
  destruct (design_mat 1 2 1 exs) as (P & E & S & V); try lia; [reflexivity|]. exists P. split; auto. split; auto.
  intros k Hk. change (n_complete 1 1) with 2 in V. rewrite !V by lia. rewrite tup0, tup1. cbn. auto.
Qed.
Lemma ex_good : good_fit exlstsq 1 1 [] exc0 exs exx.
Proof.
  destruct ex_design as (P & EP & SP & VP).
  destruct (call_mat 1 [] (mkCP 1 1 None (Some exc0)) exc0 ltac:(lia) ltac:(cbn; lia) eq_refl eq_refl (or_introl eq_refl) 2 exs ltac:(lia) eq_refl) as (y & Ey & Sy & Vy).
  exists 2, P, y. split; [lia|]. split; [reflexivity|]. split; [reflexivity|]. split; [exact Ey|]. split.
  { intros k tail Hk Ht. rewrite Vy by auto. destruct tail; [|discriminate]. change (n_complete 1 (cp_d (mkCP 1 1 None (Some exc0)))) with 2.
    rewrite zsum_2. cbn [cp_d]. rewrite tup0, tup1. assert (k = 0 \/ k = 1) as [->| ->] by lia; cbn; lra. }
  split; [exact EP|]. split.
  { exists 2, 2. split; auto. intros v Hv r Hr. pose proof (Hv 0 ltac:(lia)) as H0. pose proof (Hv 1 ltac:(lia)) as H1. rewrite zsum_2 in *.
    destruct (VP 0 ltac:(lia)) as [A0 B0], (VP 1 ltac:(lia)) as [A1 B1]. rewrite A0, B0 in H0. rewrite A1, B1 in H1.
    assert (r = 0 \/ r = 1) as [->| ->] by lia; lra. }
  eexists. split; [reflexivity|]. exists 2, 2, []. split; auto. split; [reflexivity|]. split; [reflexivity|].
  intros tail Ht v. destruct tail; [|discriminate].
  replace (residual2 _ _ _ _ _ _) with 0%R.
  - unfold residual2. apply zsum_nonneg. intros. apply pow2_ge_0.
  - unfold residual2. symmetry. apply zsum_zero. intros k Hk. rewrite zsum_2. destruct (VP k Hk) as [A B]. rewrite A, B.
    assert (k = 0 \/ k = 1) as [->| ->] by lia; cbn; ring.
Qed.
Definition exz (x : R) : arr R := mkArr [2] (fun idx => if nth 0 idx 0 =? 0 then x else 5%R).
Lemma ex_der : (forall x, ashape (exz x) = [2]) /\ (forall x, acell (exz x) [0] = x) /\
  (forall x y i, 0 <= i < 2 -> i <> 0 -> acell (exz x) [i] = acell (exz y) [i]).
Proof. repeat split. intros x y i Hi Hne. cbn. destruct (Z.eqb_spec i 0); [lia|auto]. Qed.
Definition exzm (x : R) : arr R := mkArr [2; 3] (fun idx => if (nth 0 idx 0 =? 0) && (nth 1 idx 0 =? 2) then x else 5%R).
Lemma ex_der_mat : (forall x, ashape (exzm x) = [2; 3]) /\ (forall x, acell (exzm x) [0; 2] = x) /\
  (forall x y i, 0 <= i < 2 -> i <> 0 -> acell (exzm x) [i; 2] = acell (exzm y) [i; 2]).
Proof. repeat split. intros x y i Hi Hne. cbn. destruct (Z.eqb_spec i 0); [lia|auto]. Qed.
Definition cq (r : res (arr Q)) (idxs : list (list Z)) : option (list Z * list Q) :=
  match r with Ok a => Some (ashape a, map (fun i => Qred (acell a i)) idxs) | _ => None end.
Definition qz : arr Q := mkArr [3; 2] (fun idx => nth (Z.to_nat (2 * nth 0 idx 0 + nth 1 idx 0)) [2; 1; 3; 1; 5; 7]%Q 0%Q).
