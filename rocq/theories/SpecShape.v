(** Vocabulary of C73-C79: values along one axis, grids with the same nodes, changes of units,
    exchanged axes, perturbations far from a point. *)
From Coq Require Import ZArith List Reals.
From Verif Require Import Base SplineModel Spec SpecError.
Import ListNotations.
Open Scope R_scope.

(** The values C[.., suf] do not decrease / have nondecreasing slopes along the dimension [g],
    which stands between the dimensions g1 and g2, at every position in the other dimensions. *)
Definition increasing_along (g1 : list (gdim R)) (g : gdim R) (g2 : list (gdim R)) (C : arr R) (suf : list Z) : Prop :=
  forall i1 i i2, inb (map gsize g1) i1 = true -> (0 <= i < gsize g - 1)%Z -> inb (map gsize g2) i2 = true ->
    acell C ((i1 ++ i :: i2) ++ suf) <= acell C ((i1 ++ (i + 1)%Z :: i2) ++ suf).
Definition convex_along (g1 : list (gdim R)) (g : gdim R) (g2 : list (gdim R)) (C : arr R) (suf : list Z) : Prop :=
  forall i1 i i2, inb (map gsize g1) i1 = true -> (0 <= i < gsize g - 2)%Z -> inb (map gsize g2) i2 = true ->
    (acell C ((i1 ++ (i + 1)%Z :: i2) ++ suf) - acell C ((i1 ++ i :: i2) ++ suf)) / (gnode g (i + 1) - gnode g i) <=
    (acell C ((i1 ++ (i + 2)%Z :: i2) ++ suf) - acell C ((i1 ++ (i + 1)%Z :: i2) ++ suf)) / (gnode g (i + 2) - gnode g (i + 1)).

(** Two descriptions of the same nodes, e.g. (a, b, n) and linspace(a, b, n). *)
Definition same_nodes (g g' : gdim R) : Prop :=
  gsize g = gsize g' /\ forall i, (0 <= i < gsize g)%Z -> gnode g i = gnode g' i.

(** A dimension measured in other units: x becomes s x + t. *)
Definition rescale (st : R * R) (g : gdim R) : gdim R :=
  match g with
  | Unif a b n => Unif (fst st * a + snd st) (fst st * b + snd st) n
  | Nonunif gc => Nonunif (map (fun x => fst st * x + snd st) gc)
  end.
Definition rescale_pt (st : R * R) (x : R) : R := fst st * x + snd st.
(** s_1^{o_1} ... s_d^{o_d} *)
Fixpoint unit_factor (sts : list (R * R)) (oo : list Z) : R :=
  match sts, oo with
  | st :: sts', o :: oo' => powerRZ (fst st) o * unit_factor sts' oo'
  | _, _ => 1
  end.

(** [C'] is [C] with the axes of [g] and [h] exchanged; [size] is the number of cells of a
    dimension, [gsize] for values at the nodes and [csize k] for spline coefficients. *)
Definition transposed (size : gdim R -> Z) (g1 : list (gdim R)) (g h : gdim R) (g2 : list (gdim R)) (C C' : arr R) (suf : list Z) : Prop :=
  forall i1 i j i2, inb (map size g1) i1 = true -> (0 <= i < size g)%Z -> (0 <= j < size h)%Z -> inb (map size g2) i2 = true ->
    acell C' ((i1 ++ j :: i :: i2) ++ suf) = acell C ((i1 ++ i :: j :: i2) ++ suf).

(** Every coordinate of the node [idx] is less than [m] steps away from that of [pt]. *)
Fixpoint near_node (m : nat) (grid : list (gdim R)) (pt : list R) (idx : list Z) : Prop :=
  match grid, pt, idx with
  | [], [], [] => True
  | g :: grid', x :: pt', i :: idx' => Rabs (x - gnode g i) < INR m * step g /\ near_node m grid' pt' idx'
  | _, _, _ => False
  end.
