(** Specification vocabulary for cartesian products and grids. *)
From Coq Require Import ZArith List Bool Reals.
From Verif Require Import Base ArrayModel SplineModel Spec CartesianModel.
Import ListNotations.
Open Scope Z_scope.

(** All combinations, the last coordinate varying fastest (itertools.product). *)
Fixpoint product {T} (l : list (list T)) : list (list T) :=
  match l with
  | [] => [[]]
  | x :: r => flat_map (fun a => map (cons a) (product r)) x
  end.
(** The same with the first coordinate varying fastest. *)
Definition product_f {T} (l : list (list T)) : list (list T) := map (@rev T) (product (rev l)).
Definition enumeration {T} (ord : order) (l : list (list T)) : list (list T) :=
  match ord with OrderC => product l | OrderF => product_f l end.

(** The rows of a matrix. *)
Definition rows_of {T} (a : arr T) : list (list T) :=
  match ashape a with [N; d] => map (row_of d a) (zrange N) | _ => [] end.

(** The nodes of a dimension. *)
Definition axis (g : gdim R) : list R := map (gnode g) (zrange (gsize g)).

(** What CGrid documents: a tuple (min, max, n) with min < max and n > 1, or a 1-d array of at
    least two points. *)
Definition spec_tuple_ok (s : gspec R) : Prop :=
  match s with STuple a b n => (a < b)%R /\ 1 < n | _ => False end.
Definition spec_ok (s : gspec R) : Prop :=
  match s with
  | SArr x => exists n, ashape x = [n] /\ 2 <= n
  | _ => spec_tuple_ok s
  end.

(** [f] tabulated on the rows of [nodes(grid)] and reshaped to the sizes of the grid. *)
Definition tabulate (f : list R -> R) (grid : list (gdim R)) : res (arr R) :=
  P <- nodes grid ;;
  areshape (mkArr [zprod (map gsize grid)] (fun idx => f (row_of (zlen grid) P (nth 0 idx 0)))) (map gsize grid).

(** [int(c)]: the integer next to [c] on the side of 0. *)
Definition toward_zero (c : R) (k : Z) : Prop := (0 <= c -> IZR k <= c < IZR k + 1)%R /\ (c < 0 -> IZR k - 1 < c <= IZR k)%R.
(** The uniform dimension that [nodes] makes of a dimension: an array is read as (a, b, n), too. *)
Definition read_as_triple (g g' : gdim R) : Prop :=
  match g with
  | Unif _ _ _ => g' = g
  | Nonunif gc => exists a b c l k, gc = a :: b :: c :: l /\ toward_zero c k /\ g' = Unif a b k
  end.
Definition too_short (g : gdim R) : Prop := match g with Nonunif gc => (length gc < 3)%nat | _ => False end.
