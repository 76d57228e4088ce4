(** numpy's [reshape] (C order), used by several modules.  Definitions only. *)
From Coq Require Import ZArith List Bool.
From Verif Require Import Base.
Import ListNotations.
Open Scope Z_scope.

(** [numpy.prod(shape)] for integers. *)
Definition zprod (sh : list Z) : Z := fold_right Z.mul 1 sh.
(** Position of a multi-index in row-major order, and back. *)
Fixpoint ravel (sh idx : list Z) : Z :=
  match sh, idx with
  | _ :: sh', i :: idx' => i * zprod sh' + ravel sh' idx'
  | _, _ => 0
  end.
Fixpoint unravel (sh : list Z) (r : Z) : list Z :=
  match sh with
  | [] => []
  | _ :: sh' => r / zprod sh' :: unravel sh' (r mod zprod sh')
  end.
(** [a.reshape(sh)], without a -1 entry; a wrong number of entries raises ValueError. *)
Definition areshape {T} (a : arr T) (sh : list Z) : res (arr T) :=
  if zprod (ashape a) =? zprod sh
  then Ok (mkArr sh (fun idx => acell a (unravel (ashape a) (ravel sh idx))))
  else Err ValueErr.
