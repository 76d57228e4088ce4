(** Vocabulary of C82: the entries of a list in another order, mirrored points. *)
From Coq Require Import ZArith List Reals Permutation.
From Verif Require Import Base SmolyakModel SpecSmolyak.
Import ListNotations.
Open Scope Z_scope.

(** [s] lists the positions 0 .. d-1 in some order; [reorder z s x] is [x] in that order ([z] is not used). *)
Definition ordering (d : Z) (s : list nat) : Prop := Permutation s (seq 0 (Z.to_nat d)).
Definition reorder {A} (z : A) (s : list nat) (x : list A) : list A := map (fun i => nth i x z) s.
Definition reorder_mu (s : list nat) (mu : mu_t) : mu_t :=
  match mu with MuInt k => MuInt k | MuArr l => MuArr (reorder 0 s l) end.
(** The mirror image of [x] in dimension [i] of the domain. *)
Definition mirror (lb ub : list R) (i : Z) (x : list R) : list R :=
  replace_at x i (nth (Z.to_nat i) lb 0 + nth (Z.to_nat i) ub 0 - nth (Z.to_nat i) x 0)%R.
