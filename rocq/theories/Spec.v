(** Specification vocabulary used in theorem statements.  Small, independent of the
    functions of the model (it only uses the data types). *)
From Coq Require Import ZArith List Bool Reals.
From Verif Require Import Base SplineModel.
Import ListNotations.
Open Scope Z_scope.

Section Any.
Context {T : Type}.

(** Number of nodes of a dimension. *)
Definition gsize (g : gdim T) : Z := match g with Unif _ _ n => n | Nonunif gc => zlen gc end.

(** Coefficients per dimension for spline order k (n values if k=1, n+2 coefficients if k=3). *)
Definition csize (k : Z) (g : gdim T) : Z := gsize g + k - 1.

(** Documented shape of [values]/[coefs]; [comps] is [] (scalar) or [nx] (vector-valued). *)
Definition coefs_ok (k : Z) (grid : list (gdim T)) (comps : list Z) (C : arr T) : Prop :=
  ashape C = map (csize k) grid ++ comps /\ (comps = [] \/ exists nx, comps = [nx] /\ 0 <= nx).

(** Documented shape of a values array. *)
Definition values_ok (grid : list (gdim T)) (comps : list Z) (V : arr T) : Prop :=
  ashape V = map gsize grid ++ comps /\ (comps = [] \/ exists nx, comps = [nx] /\ 0 <= nx).

(** Dimensions supported by the cubic prefilter. *)
Definition supported_dim (grid : list (gdim T)) : Prop := (1 <= length grid <= 4)%nat.

(** Each dimension has at least two nodes. *)
Definition grid_sizes_ok (grid : list (gdim T)) : Prop := Forall (fun g => 2 <= gsize g) grid.

(** [diff]: None or a non-empty tuple of multi-indices with one entry per dimension. *)
Definition orders_ok (grid : list (gdim T)) (orders : option (list (list Z))) : Prop :=
  match orders with
  | None => True
  | Some os => os <> [] /\ Forall (fun o => zlen o = zlen grid) os
  end.

(** Shape of the result for one point (docs/splines.md, output table). *)
Definition result_shape (comps : list Z) (orders : option (list (list Z))) : list Z :=
  comps ++ match orders with None => [] | Some os => [zlen os] end.

(** A point, or N rows, with enough coordinates. *)
Definition points_ok (grid : list (gdim T)) (points : pts T) : Prop :=
  match points with
  | P1 x => zlen grid <= zlen x
  | P2 a => exists N p, ashape a = [N; p] /\ 0 <= N /\ zlen grid <= p
  end.

(** Row [n] of a 2-d array of points. *)
Definition row_of (d : Z) (a : arr T) (n : Z) : list T := map (fun j => acell a [n; j]) (zrange d).

(** Component [j] of vector-valued coefficients: C[..., j]. *)
Definition component (k : Z) (grid : list (gdim T)) (C : arr T) (j : Z) : arr T :=
  mkArr (map (csize k) grid) (fun idx => acell C (idx ++ [j])).

(** Nonuniform dimensions. *)
Definition is_array (g : gdim T) : Prop := match g with Nonunif _ => True | _ => False end.
Definition all_uniform (grid : list (gdim T)) : Prop := Forall (fun g => ~ is_array g) grid.

(** Single-point call forms that compile (the others are rejected, see C09 and DESIGN.md):
    NEAREST/CONSTANT need uniform dimensions; CONSTANT cannot return a tuple. *)
Definition single_point_form (xm : extrap) (grid : list (gdim T)) (comps : list Z)
  (orders : option (list (list Z))) : Prop :=
  (xm = XLinear \/ all_uniform grid) /\ ~ (xm = XConstant /\ comps = [] /\ orders <> None).

(** Entry [suf] of a result: [] for a number, [j] for a tuple, a full index for an array. *)
Definition result_at (r : pyval T) (suf : list Z) : option T :=
  match r, suf with
  | VNum v, [] => Some v
  | VTuple l, [j] => nth_error l (Z.to_nat j)
  | VArr a, _ => Some (acell a suf)
  | _, _ => None
  end.

End Any.

(** What the user observes: with [ev] the allocating call of an evaluation function as a
    function of its [points] argument, entry [suf] of the result (component and/or
    derivative index) at the point [pt] is [v]
    - in row [n] of any call with an N x d array of points whose row [n] is [pt],
    - in the single-point call, for the forms of it that exist. *)
Definition value_by {T} (ev : pts T -> res (pyval T * option (arr T))) (xm : extrap)
  (grid : list (gdim T)) (comps : list Z) (orders : option (list (list Z)))
  (pt : list T) (suf : list Z) (v : T) : Prop :=
  (forall points N n, ashape points = [N; zlen grid] -> 0 <= n < N ->
     row_of (zlen grid) points n = pt ->
     exists o, ev (P2 points) = Ok (VArr o, None) /\
       ashape o = N :: result_shape comps orders /\ acell o (n :: suf) = v) /\
  (single_point_form xm grid comps orders ->
     exists r, ev (P1 pt) = Ok (r, None) /\ result_at r suf = Some v).

(** [eval_spline(grid, C, ., k=k, diff=orders, extrap_mode=xm)] gives [v] at [pt]. *)
Definition value_at {T} `{Num T} (k : Z) (orders : option (list (list Z))) (xm : extrap)
  (grid : list (gdim T)) (comps : list Z) (C : arr T) (pt : list T) (suf : list Z) (v : T) : Prop :=
  value_by (fun p => eval_spline k orders xm grid C p None) xm grid comps orders pt suf v.

(** [eval_linear(grid, C, .[, mode])] and [eval_cubic(grid, C, .[, mode])] give [v] at [pt];
    the mode defaults to "linear" (docs/splines.md). *)
Definition default_mode (mode : option extrap) : extrap := match mode with None => XLinear | Some m => m end.
Definition value_linear {T} `{Num T} (mode : option extrap)
  (grid : list (gdim T)) (comps : list Z) (C : arr T) (pt : list T) (suf : list Z) (v : T) : Prop :=
  value_by (fun p => eval_linear grid C p None mode) (default_mode mode) grid comps None pt suf v.
Definition value_cubic {T} `{Num T} (mode : option extrap)
  (grid : list (gdim T)) (comps : list Z) (C : arr T) (pt : list T) (suf : list Z) (v : T) : Prop :=
  value_by (fun p => eval_cubic grid C p None mode) (default_mode mode) grid comps None pt suf v.

(** ** Grids over the reals *)
(** Node [i] of a dimension. *)
Definition gnode (g : gdim R) (i : Z) : R :=
  match g with
  | Unif a b n => (a + IZR i * ((b - a) / (IZR n - 1)))%R
  | Nonunif gc => nth (Z.to_nat i) gc 0%R
  end.
Definition glo (g : gdim R) : R := gnode g 0.
Definition ghi (g : gdim R) : R := gnode g (gsize g - 1).

(** A valid dimension: at least two nodes, increasing. *)
Definition valid_dim (g : gdim R) : Prop :=
  2 <= gsize g /\
  match g with
  | Unif a b _ => (a < b)%R
  | Nonunif gc => forall i, 0 <= i < gsize g - 1 -> (nth (Z.to_nat i) gc 0 < nth (Z.to_nat (i + 1)) gc 0)%R
  end.
Definition valid_grid (grid : list (gdim R)) : Prop := Forall valid_dim grid.

(** The node with multi-index [idx]; the domain. *)
Definition node_at (grid : list (gdim R)) (idx : list Z) : list R := map2 gnode grid idx.
Definition in_dim (g : gdim R) (x : R) : Prop := (glo g <= x <= ghi g)%R.
Definition in_domain (grid : list (gdim R)) (pt : list R) : Prop := Forall2 in_dim grid pt.

(** Grids accepted for spline order k (nonuniform only for k = 1), and diff entries. *)
Definition kgrid_ok (k : Z) (grid : list (gdim R)) : Prop := k = 1 \/ (k = 3 /\ all_uniform grid).
Definition diff_ok (k : Z) (grid : list (gdim R)) (orders : option (list (list Z))) : Prop :=
  orders_ok grid orders /\
  match orders with
  | None => True
  | Some os => Forall (Forall (fun l => 0 <= l /\ (k = 3 -> l <= 1))) os
  end.


(** Affine in each coordinate separately, for functions of [d] real arguments. *)
Definition multi_affine (d : nat) (f : list R -> R) : Prop :=
  forall pre x y t post, length (pre ++ x :: post) = d ->
    f (pre ++ ((1 - t) * x + t * y)%R :: post) =
    ((1 - t) * f (pre ++ x :: post) + t * f (pre ++ y :: post))%R.

(** [q] is a closest point of the domain to [pt] (Euclidean distance). *)
Fixpoint sqdist (p q : list R) : R :=
  match p, q with
  | x :: p', y :: q' => ((x - y) * (x - y) + sqdist p' q')%R
  | _, _ => 0%R
  end.
Definition closest (grid : list (gdim R)) (pt q : list R) : Prop :=
  in_domain grid q /\ forall q', in_domain grid q' -> (sqdist pt q <= sqdist pt q')%R.

(** Continuity at [p] of a function of finitely many real arguments. *)
Definition continuous_at (F : list R -> R) (p : list R) : Prop :=
  forall eps, (0 < eps)%R -> exists delta, (0 < delta)%R /\
    forall q, Forall2 (fun x y => Rabs (y - x) < delta)%R p q -> (Rabs (F q - F p) < eps)%R.

(** One-sided derivatives. *)
Definition left_slope (f : R -> R) (x m : R) : Prop :=
  forall eps, (0 < eps)%R -> exists delta, (0 < delta)%R /\
    forall h, (0 < h < delta)%R -> (Rabs ((f x - f (x - h)) / h - m) < eps)%R.
Definition right_slope (f : R -> R) (x m : R) : Prop :=
  forall eps, (0 < eps)%R -> exists delta, (0 < delta)%R /\
    forall h, (0 < h < delta)%R -> (Rabs ((f (x + h) - f x) / h - m) < eps)%R.

(** s*C + t*C' *)
Definition alin (s : R) (C : arr R) (t : R) (C' : arr R) : arr R :=
  mkArr (ashape C) (fun idx => (s * acell C idx + t * acell C' idx)%R).

(** Coefficients c_0..c_{n+1} of a cubic B-spline on a uniform grid that takes the values
    y_0..y_{n-1} at the nodes and has zero second derivative at both ends (the cardinal cubic
    B-spline takes the values 1/6, 4/6, 1/6 at its three inner knots and its second derivative
    is proportional to 1, -2, 1 there). *)
Definition natural_coefs (n : Z) (y c : Z -> R) : Prop :=
  (forall i, 0 <= i < n -> ((c i + 4 * c (i + 1)%Z + c (i + 2)%Z) / 6 = y i)%R) /\
  (c 0%Z - 2 * c 1%Z + c 2%Z = 0)%R /\
  (c (n - 1)%Z - 2 * c n + c (n + 1)%Z = 0)%R.

(** F1 and F2 are the first and second derivatives of F on [a, b] (one-sided at the ends), F2
    being (the restriction of) a continuous function. *)
Definition twice_differentiable (a b : R) (F F1 F2 : R -> R) : Prop :=
  (forall x, (a < x < b)%R -> derivable_pt_lim F x (F1 x) /\ derivable_pt_lim F1 x (F2 x)) /\
  right_slope F a (F1 a) /\ right_slope F1 a (F2 a) /\
  left_slope F b (F1 b) /\ left_slope F1 b (F2 b) /\
  (forall x, continuity_pt F2 x).
