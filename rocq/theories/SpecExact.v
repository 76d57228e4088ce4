(** Vocabulary of C80 and C81: polynomials reproduced by Smolyak interpolation, finer grids. *)
From Coq Require Import ZArith List Reals.
From Verif Require Import Base RSum CompleteModel SpecComplete SmolyakModel SpecSmolyak.
Import ListNotations.
Open Scope Z_scope.

(** A polynomial as a list of terms (coefficient, exponents), and its value. *)
Definition polynomial := list (R * list nat).
Definition poly_value (p : polynomial) (x : list R) : R := fold_right Rplus 0%R (map (fun t => fst t * monomial x (snd t))%R p).
(** The exponents [e] fit an index [v] of the grid: degree 0 for entry 1 and at most 2^(i-1) for
    an entry i >= 2. *)
Definition fits (v : list Z) (e : list nat) : Prop := Forall2 (fun i k => Z.of_nat k < last_of_level i) v e.
Definition in_space (d : Z) (mu : mu_t) (m : Z) (p : polynomial) : Prop :=
  Forall (fun t => exists v, smolyak_index d mu m v /\ fits v (snd t)) p.
(** A density that is nowhere larger. *)
Definition coarser (mu mu' : mu_t) : Prop :=
  match mu, mu' with
  | MuInt k, MuInt k' => k <= k'
  | MuArr l, MuArr l' => Forall2 Z.le l l'
  | MuArr l, MuInt k' => Forall (fun k => k <= k') l
  | MuInt k, MuArr l' => Forall (fun k' => k <= k') l'
  end.
