(** Specification vocabulary for the gradient functions.  Independent of the model's functions. *)
From Coq Require Import ZArith List Reals.
From Verif Require Import Base SplineModel Spec SpecBasis.
Import ListNotations.

(** The arguments [a], [b], [orders] of the legacy functions for the grid ((a1,b1,n1), .., (ad,bd,nd)). *)
Definition lower (g : list (R * R * Z)) : list R := map (fun t => fst (fst t)) g.
Definition upper (g : list (R * R * Z)) : list R := map (fun t => snd (fst t)) g.
Definition counts (g : list (R * R * Z)) : list Z := map snd g.

(** The point [p] with coordinate number [m] replaced by [t]. *)
Definition moved (p : list R) (m : nat) (t : R) : list R := firstn m p ++ t :: skipn (S m) p.

(** [F] is component [k] of the cubic interpolant with coefficients [C], extrapolated linearly. *)
Definition is_interpolant (g : list (R * R * Z)) (ns : Z) (C : arr R) (k : Z) (F : list R -> R) : Prop :=
  forall q, length q = length g -> value_at 3 None XLinear (unif_grid g) [ns] C q [k] (F q).

(** Partial derivative number [m] of [F] at [p]. *)
Definition partial_at (F : list R -> R) (p : list R) (m : nat) (l : R) : Prop :=
  derivable_pt_lim (fun t => F (moved p m t)) (nth m p 0%R) l.

(** An optional output array has the documented shape. *)
Definition opt_shape (sh : list Z) (o : option (arr R)) : Prop := match o with None => True | Some a => ashape a = sh end.
