(** Concrete data used in the examples beside the theorems. *)
From Coq Require Import ZArith List Bool Reals QArith Lia Lra PrimFloat.
From Verif Require Import Base SplineModel Spec.
Import ListNotations.
Open Scope Z_scope.

(** A 2-d grid with a uniform and a nonuniform dimension, a uniform 2-d grid. *)
Definition exg : list (gdim R) := [Unif 0%R 1%R 3; Nonunif [0; 1; 3]%R].
Definition exu : list (gdim R) := [Unif 0%R 1%R 3; Unif (-1)%R 1%R 4].
Definition exC : arr R := mkArr [3; 3] (fun idx => match idx with [i; j] => IZR (i * i + 10 * j) | _ => 0%R end).
Definition exV : arr R := mkArr [3; 3; 2] (fun idx => match idx with [i; j; c] => IZR (i * i + 10 * j + 100 * c) | _ => 0%R end).
Definition exK : arr R := mkArr [5; 6] (fun idx => match idx with [i; j] => IZR (i * i + 10 * j) | _ => 0%R end).

Lemma exg_valid : valid_grid exg.
Proof.
  constructor; [|constructor; [|constructor]]; (split; [vm_compute; discriminate|]); [cbn; lra|].
  intros i Hi. change (0 <= i < 2) in Hi. assert (i = 0 \/ i = 1) as [->| ->] by lia; [change (0 < 1)%R|change (1 < 3)%R]; lra.
Qed.
Lemma exu_valid : valid_grid exu.
Proof. repeat constructor; cbn; try lia; try lra. Qed.
Lemma exu_uniform : all_uniform exu.
Proof. repeat constructor; cbn; auto. Qed.
Lemma exC_ok : coefs_ok 1 exg [] exC.
Proof. split; auto. Qed.
Lemma exV_ok : coefs_ok 1 exg [2] exV.
Proof. split; [reflexivity|]. right. exists 2. split; [reflexivity|lia]. Qed.
Lemma exK_ok : coefs_ok 3 exu [] exK.
Proof. split; auto. Qed.

(** The same over the rationals and over IEEE floats, to compute with. *)
Definition qg : list (gdim Q) := [Unif 0%Q 1%Q 3; Nonunif [0; 1; 3]%Q].
Definition qu : list (gdim Q) := [Unif 0%Q 1%Q 3; Unif (-1)%Q 1%Q 4].
Definition qC : arr Q := mkArr [3; 3] (fun idx => match idx with [i; j] => inject_Z (i * i + 10 * j) | _ => 0%Q end).
Definition qV : arr Q := mkArr [3; 3; 2] (fun idx => match idx with [i; j; c] => inject_Z (i * i + 10 * j + 100 * c) | _ => 0%Q end).
Definition qVu : arr Q := mkArr [3; 4; 2] (fun idx => match idx with [i; j; c] => inject_Z (i * i + 10 * j + 100 * c) | _ => 0%Q end).
Definition qCu : arr Q := mkArr [3; 4] (fun idx => match idx with [i; j] => inject_Z (i * i + 10 * j) | _ => 0%Q end).
Definition qK : arr Q := mkArr [5; 6] (fun idx => match idx with [i; j] => inject_Z (i * i + 10 * j) | _ => 0%Q end).
Definition qP : arr Q := mkArr [2; 2] (fun idx => match idx with [n; j] => (inject_Z (n + j) / 3)%Q | _ => 0%Q end).
Definition fg : list (gdim float) := [Unif 0%float 1%float 3; Nonunif [0%float; 1%float; 3%float]].
Definition fC : arr float := mkArr [3; 3] (fun idx => match idx with [i; j] => n_ofZ (i * i + 10 * j) | _ => 0%float end).

(** Reading results. *)
Definition qnum (r : res (pyval Q * option (arr Q))) : option Q :=
  match r with Ok (VNum q, _) => Some (Qred q) | _ => None end.
Definition qtuple (r : res (pyval Q * option (arr Q))) : option (list Q) :=
  match r with Ok (VTuple l, _) => Some (map Qred l) | _ => None end.
Definition qcells (r : res (pyval Q * option (arr Q))) (idxs : list (list Z)) : option (list Q) :=
  match r with Ok (VArr a, _) => Some (map (fun i => Qred (acell a i)) idxs) | _ => None end.
Definition qouts (r : res (pyval Q * option (arr Q))) (idxs : list (list Z)) : option (list Q) :=
  match r with Ok (_, Some a) => Some (map (fun i => Qred (acell a i)) idxs) | _ => None end.
Definition is_ok {A} (r : res A) : bool := match r with Ok _ => true | Err _ => false end.
