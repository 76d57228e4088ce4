(** Vocabulary of the error bounds (C67-C70): cells, smooth functions. *)
From Coq Require Import ZArith List Reals.
From Verif Require Import Base SplineModel Spec.
Import ListNotations.
Open Scope R_scope.

(** The point lies in the (closed) cell number [c]: c_j-th node <= pt_j <= next node. *)
Fixpoint in_cell (grid : list (gdim R)) (c : list Z) (pt : list R) : Prop :=
  match grid, c, pt with
  | [], [], [] => True
  | g :: grid', i :: c', x :: pt' =>
      (0 <= i /\ i + 1 <= gsize g - 1)%Z /\ gnode g i <= x <= gnode g (i + 1) /\ in_cell grid' c' pt'
  | _, _, _ => False
  end.

(** The 2^d nodes at the corners of a cell. *)
Definition corner (c idx : list Z) : Prop := Forall2 (fun i j => j = i \/ j = (i + 1)%Z) c idx.

(** [f] is twice differentiable on the interval of the dimension and |f''| <= M there. *)
Definition curvature_within (g : gdim R) (M : R) (f : R -> R) : Prop :=
  exists f1 f2 : R -> R, forall x, in_dim g x ->
    derivable_pt_lim f x (f1 x) /\ derivable_pt_lim f1 x (f2 x) /\ Rabs (f2 x) <= M.

(** [f] is four times differentiable, |f''''| <= M, and f'' is 0 at both ends (as the second
    derivative of a natural spline is). *)
Definition fourth_within (g : gdim R) (M : R) (f : R -> R) : Prop :=
  exists f1 f2 f3 f4 : R -> R,
    (forall x, in_dim g x ->
       derivable_pt_lim f x (f1 x) /\ derivable_pt_lim f1 x (f2 x) /\
       derivable_pt_lim f2 x (f3 x) /\ derivable_pt_lim f3 x (f4 x) /\ Rabs (f4 x) <= M) /\
    f2 (glo g) = 0 /\ f2 (ghi g) = 0.

(** The same of each of the d functions of one coordinate, the other coordinates being fixed
    anywhere in the domain, with one bound per dimension. *)
Fixpoint along_axes (P : gdim R -> R -> (R -> R) -> Prop) (grid : list (gdim R)) (Ms : list R) (f : list R -> R) : Prop :=
  match grid, Ms with
  | [], [] => True
  | g :: grid', M :: Ms' =>
      (forall p, in_domain grid' p -> P g M (fun t => f (t :: p))) /\
      (forall t, in_dim g t -> along_axes P grid' Ms' (fun p => f (t :: p)))
  | _, _ => False
  end.

(** sum of M_j h_j^2 / 8, with h_j the length of the cell in dimension j *)
Fixpoint linear_error (grid : list (gdim R)) (c : list Z) (Ms : list R) : R :=
  match grid, c, Ms with
  | g :: grid', i :: c', M :: Ms' => M * (gnode g (i + 1) - gnode g i) ^ 2 / 8 + linear_error grid' c' Ms'
  | _, _, _ => 0
  end.

(** sum of M_j x_j^2 / 2, and the middle of a cell: where the bound above is attained *)
Definition parabola (Ms x : list R) : R := fold_right Rplus 0 (map2 (fun M t => M * t ^ 2 / 2) Ms x).
Definition midpoint (grid : list (gdim R)) (c : list Z) : list R :=
  map2 (fun g i => (gnode g i + gnode g (i + 1)) / 2) grid c.

(** Distance between neighbouring nodes of a uniform dimension. *)
Definition step (g : gdim R) : R := (ghi g - glo g) / (IZR (gsize g) - 1).

(** E_j = K M_j h_j^p + 5/2 E_{j+1} *)
Fixpoint cubic_error (K : R) (p : nat) (grid : list (gdim R)) (Ms : list R) : R :=
  match grid, Ms with
  | g :: grid', M :: Ms' => K * M * step g ^ p + 5 / 2 * cubic_error K p grid' Ms'
  | _, _ => 0
  end.
