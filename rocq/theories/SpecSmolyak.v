(** Specification vocabulary for the Smolyak module. *)
From Coq Require Import ZArith List Bool Reals Permutation.
From Verif Require Import Base RSum CompleteModel SpecComplete SmolyakModel.
Import ListNotations.
Open Scope Z_scope.

(** Lexicographic order on lists of equal length. *)
Inductive lex_lt : list Z -> list Z -> Prop :=
| lex_hd x y l m : x < y -> length l = length m -> lex_lt (x :: l) (y :: m)
| lex_tl x l m : lex_lt l m -> lex_lt (x :: l) (x :: m).

(** Sum of a list of integers. *)
Definition total (l : list Z) : Z := fold_right Z.add 0 l.

(** The Smolyak indices of a grid of [d] dimensions: an index [v] has [d] positive entries, the
    sum of which is at most [d] plus the density (the largest entry of the density vector when
    it is one), and each entry is at most one more than its own density. *)
Definition density (l : list Z) (m : Z) : Prop := In m l /\ forall x, In x l -> x <= m.
Definition iso_index (d m : Z) (v : list Z) : Prop :=
  zlen v = d /\ Forall (fun i => 1 <= i) v /\ total v <= d + m.
Definition aniso_index (d : Z) (l : list Z) (m : Z) (v : list Z) : Prop :=
  iso_index d m v /\ Forall2 (fun i mk => i <= mk + 1) v l.

(** The level of a basis function (numbered from 1): 1 for the first, 2 for the next two, and
    then twice as many for each level: level i ends with number 2^(i-1) + 1. *)
Definition last_of_level (i : Z) : Z := if i <=? 0 then 0 else if i =? 1 then 1 else 2 ^ (i - 1) + 1.
Definition at_level (i b : Z) : Prop := last_of_level (i - 1) < b <= last_of_level i.

(** A density argument accepted by SmolyakGrid for [d] dimensions, with largest entry [m], and
    its indices. *)
Definition density_ok (d : Z) (mu : mu_t) (m : Z) : Prop :=
  match mu with
  | MuInt k => 1 <= k /\ m = k
  | MuArr l => zlen l = d /\ Forall (fun x => 1 <= x) l /\ density l m
  end.
Definition smolyak_index (d : Z) (mu : mu_t) (m : Z) (v : list Z) : Prop :=
  match mu with MuInt _ => iso_index d m v | MuArr l => aniso_index d l m v end.

(** Chebyshev extrema: the points at which the polynomial of degree 2^(i-1) is 1 or -1. *)
Definition extremum (i j : Z) : R := (- cos (PI * IZR j / IZR (2 ^ (i - 1))))%R.
Definition is_extremum (i : Z) (x : R) : Prop :=
  if i =? 1 then x = 0%R else exists j, 0 <= j <= 2 ^ (i - 1) /\ x = extremum i j.

(** The clean-up of [s_n] with threshold [tiny] cannot act on another value than 0. *)
Definition tiny_ok (tiny : R) (n : Z) : Prop := (0 < tiny <= / IZR (2 ^ (n - 2)))%R.

(** Chebyshev polynomials of the first kind, and their products. *)
Fixpoint cheb (n : nat) (x : R) : R :=
  match n with
  | O => 1
  | S m => match m with O => x | S k => 2 * x * cheb m x - cheb k x end
  end%R.
Fixpoint basis (b : list Z) (x : list R) : R :=
  match b, x with
  | i :: b', t :: x' => (cheb (Z.to_nat (i - 1)) t * basis b' x')%R
  | _, _ => 1%R
  end.
(** Row [p] of a matrix with [d] columns. *)
Definition mrow {T} (d : Z) (a : arr T) (p : Z) : list T := map (fun k => acell a [p; k]) (zrange d).
(** [x] with its entry [i] replaced. *)
Definition replace_at (x : list R) (i : Z) (s : R) : list R := firstn (Z.to_nat i) x ++ s :: skipn (S (Z.to_nat i)) x.
(** Rows of basis indices fit a density with largest entry [m] in [d] dimensions. *)
Definition indices_ok (d m : Z) (b_inds : list (list Z)) : Prop :=
  Forall (fun b => zlen b = d /\ Forall (fun i => 1 <= i <= 2 ^ m + 1) b) b_inds.

(** ** Linear algebra routines *)
Definition nonsingular (A : arr R) (n : Z) : Prop :=
  forall x : Z -> R, (forall i, 0 <= i < n -> zsum n (fun j => acell A [i; j] * x j)%R = 0%R) -> forall j, 0 <= j < n -> x j = 0%R.
(** What scipy documents for lu(B, permute_l=True): two square factors with product B. *)
Definition lu_ok (lu : arr R -> res (arr R * arr R)) : Prop :=
  forall B n, ashape B = [n; n] -> exists L U, lu B = Ok (L, U) /\ ashape L = [n; n] /\ ashape U = [n; n] /\
    forall i j, 0 <= i < n -> 0 <= j < n -> zsum n (fun k => acell L [i; k] * acell U [k; j])%R = acell B [i; j].
(** What numpy documents for linalg.solve(A, b) with a nonsingular A and b of one or two dimensions. *)
Definition solve_ok (solve : arr R -> arr R -> res (arr R)) : Prop :=
  forall A b n tl, outshape tl -> ashape A = [n; n] -> ashape b = n :: tl -> nonsingular A n ->
  exists x, solve A b = Ok x /\ ashape x = n :: tl /\
    forall i tail, 0 <= i < n -> inb tl tail = true -> zsum n (fun j => acell A [i; j] * acell x (j :: tail))%R = acell b (i :: tail).

(** ** The domain *)
(** A lower or upper bound argument stands for the list [l] (one entry per dimension). *)
Definition bound_list (d : Z) (dflt : R) (b : bound R) (l : list R) : Prop :=
  zlen l = d /\
  match b with
  | BNone => forall x, In x l -> x = dflt
  | BScalar c => forall x, In x l -> x = c
  | BList l' => l = l'
  | BOther => False
  end.
(** Position in the cube of a point of the domain: lb to -1, ub to 1, linearly. *)
Fixpoint to_cube (lb ub x : list R) : list R :=
  match lb, ub, x with
  | l :: lb', u :: ub', t :: x' => ((2 * t - l - u) / (u - l))%R :: to_cube lb' ub' x'
  | _, _, _ => []
  end.
(** The interpolated function: the combination with coefficients [th] of the basis functions
    with indices [P]. *)
Definition smolyak_value (lb ub : list R) (P : list (list Z)) (th : Z -> R) (x : list R) : R :=
  zsum (zlen P) (fun j => basis (nth (Z.to_nat j) P []) (to_cube lb ub x) * th j)%R.
