(** Specification vocabulary for [mlinterp] and [interp]. *)
From Coq Require Import ZArith List Bool.
From Verif Require Import Base SplineModel InterpModel.
Import ListNotations.
Open Scope Z_scope.

(** The argument [e] of [interp] describes the axis [g]: a tuple (a, b, n), or a 1-d array of
    the nodes. *)
Definition axis_of {T} (e : iarg T) (g : gdim T) : Prop :=
  match e, g with
  | ADim a b n, Unif a' b' n' => a = a' /\ b = b' /\ n = n'
  | AArr x, Nonunif gc => ashape x = [zlen gc] /\
      forall i, 0 <= i < zlen gc -> nth_error gc (Z.to_nat i) = Some (acell x [i])
  | _, _ => False
  end.
Definition axes_of {T} (axes : list (iarg T)) (grid : list (gdim T)) : Prop := Forall2 axis_of axes grid.

(** [interp(x1, .., xd, C, (p1, .., pd))]: the call with a tuple. *)
Definition interp_tuple {T} `{Num T} (axes : list (iarg T)) (C : arr T) (pt : list T) : res (pyval T) :=
  interp (axes ++ [AArr C; ATuple pt]).

(** [r] is the array of the numbers [f i] for the indices [i] of shape [sh]; it exists if and
    only if all these numbers do. *)
Definition tabulates {T} (r : res (pyval T)) (sh : list Z) (f : list Z -> res (pyval T)) : Prop :=
  (forall v, r = Ok v -> exists a, v = VArr a /\ ashape a = sh /\
     forall idx, inb sh idx = true -> f idx = Ok (VNum (acell a idx))) /\
  ((forall idx, inb sh idx = true -> exists v, f idx = Ok (VNum v)) -> exists a, r = Ok (VArr a)).
