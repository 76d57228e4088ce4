(** Model of the evaluation functions of interpolation/splines/eval_cubic_numba.py, for d = 1, 2,
    3, 4 at once (the gradient functions are [splines_G] of GradModel.v).  Definitions only. *)
From Coq Require Import ZArith List Bool.
From Verif Require Import Base SplineModel GradModel.
Import ListNotations.
Open Scope Z_scope.
Open Scope num_scope.

Section Model.
Context {T : Type} {NT : Num T}.

(** eval_cubic_numba.py 126-132, 262-265 ..: the nested sum with the value weights; [suf] is [[k]] in the
    functions for several splines and empty in the others. *)
Definition n_sum (coefs : arr T) (cells : list (Z * (list T * list T))) (suf : list Z) : res T :=
  trex (g_weights (-1) cells) (fun inds => aget coefs (map2 Z.add (map fst cells) inds ++ suf)) [].

(** eval_cubic_numba.py 79-133 (d=1), 137-267 (2), 270-541 (3), 544-1248 (4): [eval_cubic_spline_d]. *)
Definition num_eval_spline (d : Z) (a b : list T) (orders : list Z) (coefs : arr T) (point : list T) : res T :=
  dims <- mapM (g_dim a b orders) (zrange d) ;;
  xs <- mapM (lget point) (zrange d) ;;
  n_sum coefs (map2 g_cell xs dims) [].

(** eval_cubic_numba.py 1251-2552: [vec_eval_cubic_spline_d]. *)
Definition num_vec_eval_spline (d : Z) (a b : list T) (orders : list Z) (coefs points out : arr T) : res (arr T) :=
  N <- adim points 0 ;;
  foldM (fun out n =>
    xs <- mapM (fun k => aget points [n; k]) (zrange d) ;;
    dims <- mapM (g_dim a b orders) (zrange d) ;;
    v <- n_sum coefs (map2 g_cell xs dims) [] ;;
    aset out [n] v) (zrange N) out.

(** eval_cubic_numba.py 2555-3732: [eval_cubic_splines_d]. *)
Definition num_eval_splines (d : Z) (a b : list T) (orders : list Z) (coefs : arr T) (point : list T) (vals : arr T) : res (arr T) :=
  n_vals <- adim coefs d ;;
  dims <- mapM (g_dim a b orders) (zrange d) ;;
  xs <- mapM (lget point) (zrange d) ;;
  foldM (fun vals k => v <- n_sum coefs (map2 g_cell xs dims) [k] ;; aset vals [k] v) (zrange n_vals) vals.

(** eval_cubic_numba.py 3735-5044: [vec_eval_cubic_splines_d]. *)
Definition num_vec_eval_splines (d : Z) (a b : list T) (orders : list Z) (coefs points vals : arr T) : res (arr T) :=
  n_vals <- adim coefs d ;;
  N <- adim points 0 ;;
  dims <- mapM (g_dim a b orders) (zrange d) ;;
  foldM (fun vals n =>
    xs <- mapM (fun k => aget points [n; k]) (zrange d) ;;
    foldM (fun vals k => v <- n_sum coefs (map2 g_cell xs dims) [k] ;; aset vals [n; k] v) (zrange n_vals) vals) (zrange N) vals.

End Model.
