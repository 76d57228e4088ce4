(** Model of interpolation/splines/basis_splines.py.  Definitions only. *)
From Coq Require Import ZArith List Bool.
From Verif Require Import Base.
Import ListNotations.
Open Scope Z_scope.
Open Scope num_scope.

(** [u[i]] on a Python list or array: a negative subscript counts from the end. *)
Definition pyget {A} (l : list A) (i : Z) : res A :=
  lget l (if i <? 0 then i + zlen l else i).

Section Model.
Context {T : Type} {NT : Num T}.

(** basis_splines.py 1-5.  The comparison is chained: [u[i + 1]] is read only when [u[i] <= x]. *)
Definition B0 (u : list T) (i : Z) (x : T) : res T :=
  a <- pyget u i ;;
  if a <=?! x then
    b <- pyget u (i + 1) ;;
    Ok (if x <?! b then n_ofZ 1 else n_ofZ 0)
  else Ok (n_ofZ 0).

(** basis_splines.py 8-14.  The degree is a natural number: for [p < 0] the Python recursion never
    reaches [p == 0].  Division by zero raises (Python floats; numpy scalars would give nan). *)
Fixpoint B (p : nat) (u : list T) (i : Z) (x : T) : res T :=
  match p with
  | O => B0 u i x
  | S p' =>
      let pz := Z.of_nat p in
      a <- pyget u i ;;
      b <- pyget u (i + pz) ;;
      w1 <- divE (x -! a) (b -! a) ;;
      v1 <- B p' u i x ;;
      c <- pyget u (i + pz + 1) ;;
      e <- pyget u (i + 1) ;;
      w2 <- divE (c -! x) (c -! e) ;;
      v2 <- B p' u (i + 1) x ;;
      Ok (w1 *! v1 +! w2 *! v2)
  end.

End Model.
