(** Specification vocabulary for complete polynomials. *)
From Coq Require Import ZArith List Reals.
From Verif Require Import Base RSum CompleteModel.
Import ListNotations.
Open Scope Z_scope.

(** Binomial coefficient (Pascal's triangle). *)
Fixpoint binom (n k : nat) : Z :=
  match k, n with
  | O, _ => 1
  | S _, O => 0
  | S k', S n' => binom n' k' + binom n' k
  end.

(** The monomial z0^e0 * z1^e1 * ... *)
Fixpoint monomial (z : list R) (e : list nat) : R :=
  match z, e with
  | x :: z', k :: e' => (x ^ k * monomial z' e')%R
  | _, _ => 1%R
  end.

(** Total degree. *)
Definition degree (e : list nat) : nat := fold_right Nat.add O e.

(** The entries of a vector, or of column k of a matrix. *)
Definition vec_entries {T} (n : Z) (z : arr T) : list T := map (fun i => acell z [i]) (zrange n).
Definition col_entries {T} (n : Z) (z : arr T) (k : Z) : list T := map (fun i => acell z [i; k]) (zrange n).

(** c minimises the sum of squared residuals of Phi c = x, for each right-hand side
    (trailing index). *)
Definition residual2 (Phi x : arr R) (N m : Z) (tail : list Z) (v : Z -> R) : R :=
  zsum N (fun k => ((zsum m (fun r => acell Phi [k; r] * v r) - acell x (k :: tail)) ^ 2)%R).
Definition least_squares (Phi x c : arr R) : Prop :=
  exists N m tl, ashape Phi = [N; m] /\ ashape x = N :: tl /\ ashape c = m :: tl /\
  forall tail, inb tl tail = true -> forall v : Z -> R,
    (residual2 Phi x N m tail (fun r => acell c (r :: tail)) <= residual2 Phi x N m tail v)%R.

(** The columns of Phi are linearly independent. *)
Definition full_column_rank (Phi : arr R) : Prop :=
  exists N m, ashape Phi = [N; m] /\
  forall v : Z -> R, (forall k, 0 <= k < N -> zsum m (fun r => acell Phi [k; r] * v r)%R = 0%R) ->
    forall r, 0 <= r < m -> v r = 0%R.

(** Shape of one observation of the data: a number or a vector. *)
Definition outshape (tl : list Z) : Prop := tl = [] \/ exists q, tl = [q].

(** One call of [fit_values] whose data x are the values at the samples s (a matrix with one
    observation per row) of the polynomial with coefficients c0, whose design matrix has full
    column rank, and on which [lstsq] does what scipy documents. *)
Definition good_fit (lstsq : arr R -> arr R -> res (arr R)) (n d : Z) (tl : list Z) (c0 : arr R) (s x : arr R) : Prop :=
  exists N P y, 0 <= N /\ ashape s = [N; n] /\ ashape x = N :: tl /\
    cp_call (mkCP n d None (Some c0)) s = Ok y /\ (forall k tail, 0 <= k < N -> inb tl tail = true -> acell x (k :: tail) = acell y (k :: tail)) /\
    complete_polynomial (atranspose s) d = Ok P /\ full_column_rank (atranspose P) /\
    exists c, lstsq (atranspose P) x = Ok c /\ least_squares (atranspose P) x c.

(** A history of fits; the state is kept when a fit raises. *)
Definition run_fits (lstsq : arr R -> arr R -> res (arr R)) (cp : cpoly R) (fits : list (arr R * arr R * R)) : cpoly R :=
  fold_left (fun cp f => let '(s, x, damp) := f in fst (cp_fit lstsq cp s x damp)) fits cp.
