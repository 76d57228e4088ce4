(** Vocabulary of the rounding-error bounds (C72): arithmetics with a relative error. *)
From Coq Require Import ZArith List Reals.
From Flocq Require Import Core.
From Verif Require Import Base SplineModel Spec.
Import ListNotations.
Open Scope R_scope.

(** The standard model of floating-point arithmetic without overflow and underflow: each of + - * / has a
    relative error of at most [u]; comparisons are exact, and so are integers up to 1/u and [floor]. *)
Record rounded (N : Num R) (u : R) : Prop := {
  r_add : forall x y, exists e, Rabs e <= u /\ @n_add R N x y = (x + y) * (1 + e);
  r_sub : forall x y, exists e, Rabs e <= u /\ @n_sub R N x y = (x - y) * (1 + e);
  r_mul : forall x y, exists e, Rabs e <= u /\ @n_mul R N x y = (x * y) * (1 + e);
  r_div : forall x y, y <> 0 -> exists e, Rabs e <= u /\ @n_div R N x y = (x / y) * (1 + e);
  r_int : forall z, Rabs (IZR z) * u <= 1 -> @n_ofZ R N z = IZR z;
  r_ltb : forall x y, @n_ltb R N x y = true <-> x < y;
  r_leb : forall x y, @n_leb R N x y = true <-> x <= y;
  r_is0 : forall x, @n_is0 R N x = true <-> x = 0;
  r_floor : forall x, IZR (@n_floor R N x) <= x < IZR (@n_floor R N x) + 1 }.

(** Binary floating-point numbers of precision [p], rounding to nearest, ties to even, any exponent. *)
Definition to_nearest (p : Z) (x : R) : R := round radix2 (FLX_exp p) ZnearestE x.
Definition binary (p : Z) : Num R := {|
  n_ofZ := fun z => to_nearest p (IZR z);
  n_add := fun x y => to_nearest p (x + y); n_sub := fun x y => to_nearest p (x - y);
  n_mul := fun x y => to_nearest p (x * y); n_div := fun x y => to_nearest p (x / y);
  n_ltb := Rlt_bool; n_leb := Rle_bool; n_is0 := fun x => Req_bool x 0;
  n_floor := Zfloor; n_floordiv := fun x y => Zfloor (to_nearest p (x / y)); n_finite := fun _ => true |}.

(** Relative error of one dimension, and of all of them: the product of the [1 + e_j], minus 1. *)
Definition dim_error (k : Z) (u : R) (g : gdim R) : R :=
  match g with
  | Unif _ _ n => (if (k =? 1)%Z then 14 else 100) * IZR n * u
  | Nonunif _ => 12 * u
  end.
Definition grid_error (k : Z) (u : R) (grid : list (gdim R)) : R :=
  fold_right (fun g e => (1 + dim_error k u g) * e) 1 grid - 1.
(** The nodes of the uniform dimensions are not too many for the precision. *)
Definition resolved (u : R) (g : gdim R) : Prop :=
  match g with Unif _ _ n => IZR n * u <= / 200 | Nonunif _ => True end.
