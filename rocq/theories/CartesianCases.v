(** Concrete data for the examples of PropsCartesian. *)
From Coq Require Import ZArith List Bool Reals Lia Lra.
From Verif Require Import Base ArrayModel SplineModel Spec CartesianModel SpecCartesian CartesianR.
Import ListNotations.
Open Scope Z_scope.
Definition exug : list (gdim R) := [Unif 0%R 1%R 3; Unif (-1)%R 3%R 4].
Lemma ex_C35 : exug <> [] /\ valid_grid exug /\ all_uniform exug /\ supported_dim exug /\ zprod (map gsize exug) = 12.
Proof.
  split; [discriminate|]. split; [|split; [|split; [|reflexivity]]].
  - repeat constructor; cbn; lia || lra.
  - repeat constructor; cbn; auto.
  - unfold supported_dim; cbn; lia.
Qed.
Lemma ex_C36 : ucgrid [STuple 0 1 5; STuple (-1) 2 3]%R = Ok [STuple 0 1 5; STuple (-1) 2 3]%R.
Proof. apply ucgrid_accepts. repeat constructor; lra || lia. Qed.
