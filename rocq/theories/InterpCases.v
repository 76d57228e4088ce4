(** Concrete data for the examples of PropsInterp. *)
From Coq Require Import ZArith List Bool Reals QArith Lia Lra.
From Verif Require Import Base SplineModel Spec InterpModel SpecInterp ExampleData InterpProps.
Import ListNotations.
Open Scope Z_scope.

Definition exaxes : list (iarg R) :=
  [ADim 0%R 1%R 3; AArr (mkArr [3] (fun idx => nth (Z.to_nat (hd 0 idx)) [0; 1; 3]%R 0%R))].
Lemma exaxes_ok : axes_of exaxes exg.
Proof.
  repeat constructor. cbn. intros i Hi. change (zlen [0; 1; 3]%R) with 3 in Hi.
  assert (i = 0 \/ i = 1 \/ i = 2) as [->|[->| ->]] by lia; reflexivity.
Qed.
Definition qaxes : list (iarg Q) :=
  [ADim 0%Q 1%Q 3; AArr (mkArr [3] (fun idx => nth (Z.to_nat (hd 0 idx)) [0; 1; 3]%Q 0%Q))].
Lemma qaxes_ok : axes_of qaxes qg.
Proof.
  repeat constructor. cbn. intros i Hi. change (zlen [0; 1; 3]%Q) with 3 in Hi.
  assert (i = 0 \/ i = 1 \/ i = 2) as [->|[->| ->]] by lia; reflexivity.
Qed.
Definition qval (r : res (pyval Q)) : option Q := match r with Ok (VNum q) => Some (Qred q) | _ => None end.
Definition qvals (r : res (pyval Q)) (idxs : list (list Z)) : option (list Q) :=
  match r with Ok (VArr a) => Some (map (fun i => Qred (acell a i)) idxs) | _ => None end.
Definition qa (l : list Q) : arr Q := mkArr [zlen l] (fun idx => nth (Z.to_nat (hd 0 idx)) l 0%Q).

Lemma ex_C23 : valid_grid exg /\ coefs_ok 1 exg [] exC /\ exists v, mlinterp exg exC (P1 [7; -3]%R) = Ok (VNum v).
Proof.
  split; [exact exg_valid|]. split; [exact exC_ok|]. cbn [mlinterp].
  rewrite mlinterp_point_R by (auto using exg_valid, exC_ok). cbn. eauto.
Qed.
Lemma ex_C24 : axes_of exaxes exg /\ valid_grid exg /\ coefs_ok 1 exg [] exC /\
  exists v, interp_tuple exaxes exC [7; -3]%R = Ok (VNum v).
Proof.
  split; [exact exaxes_ok|]. split; [exact exg_valid|]. split; [exact exC_ok|].
  apply (interp_total _ exg); auto using exaxes_ok, exg_valid, exC_ok. discriminate.
Qed.
Lemma ex_C26 : axes_of exaxes ([Unif 0 1 3]%R ++ Nonunif [0; 1; 3]%R :: []) /\
  (forall i1 i i2, inb (ashape exC) (i1 ++ i :: i2) = true -> inb (ashape exC) (i1 ++ (i + 1)%Z :: i2) = true ->
     length i1 = 1%nat -> (acell exC (i1 ++ i :: i2) <= acell exC (i1 ++ (i + 1)%Z :: i2))%R).
Proof.
  split; [exact exaxes_ok|]. intros i1 i i2 H1 H2 HL. destruct i1 as [|a [|]]; try discriminate.
  destruct i2 as [|]; [|cbn in H1; rewrite !andb_false_r in H1; discriminate]. change (IZR (a * a + 10 * i) <= IZR (a * a + 10 * (i + 1)))%R. apply IZR_le. lia.
Qed.
