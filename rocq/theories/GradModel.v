(** Model of the gradient functions of interpolation/splines/eval_cubic_numba.py
    ([vec_eval_cubic_splines_G_1] .. [_4]) and of interpolation/splines/eval_cubic.py.
    Definitions only.

    The four gradient functions are the same program written out for d = 1, 2, 3, 4: a block
    of assignments repeated for every dimension becomes a list operation. *)
From Coq Require Import ZArith List Bool.
From Verif Require Import Base SplineModel.
Import ListNotations.
Open Scope Z_scope.
Open Scope num_scope.

Section Model.
Context {T : Type} {NT : Num T}.

(** eval_cubic_numba.py 14-22: the matrix [Ad]; 24-26: [dAd[:, i] = Ad[:, i-1] * (4 - i)], column 0
    is zero.  The entries are those of eval_splines.py. *)
Definition Ad (j m : Z) : T := Cd j m.
Definition dAd (j m : Z) : T := dCd j m.

(** eval_cubic_numba.py 5074-5115 (the same lines with Phi1_, Phi2_, Phi3_ further down): value
    weights of one dimension. *)
Definition g_phi (t : T) (j : Z) : T :=
  let tp0 := t *! t *! t in let tp1 := t *! t in let tp2 := t in let tp3 := n_ofZ 1 in
  if t <?! n_ofZ 0 then dAd j 3 *! t +! Ad j 3
  else if n_ofZ 1 <?! t then
    (n_ofZ 3 *! Ad j 0 +! n_ofZ 2 *! Ad j 1 +! Ad j 2) *! (t -! n_ofZ 1) +! (Ad j 0 +! Ad j 1 +! Ad j 2 +! Ad j 3)
  else Ad j 0 *! tp0 +! Ad j 1 *! tp1 +! Ad j 2 *! tp2 +! Ad j 3 *! tp3.

(** eval_cubic_numba.py 5116-5139: derivative weights; no test of the sign of t or of t > 1. *)
Definition g_dphi (t dinv : T) (j : Z) : T :=
  let tp0 := t *! t *! t in let tp1 := t *! t in let tp2 := t in let tp3 := n_ofZ 1 in
  (dAd j 0 *! tp0 +! dAd j 1 *! tp1 +! dAd j 2 *! tp2 +! dAd j 3 *! tp3) *! dinv.

(** eval_cubic_numba.py 5052-5054 / 5159-5164: M_k, start_k, dinv_k. *)
Definition g_dim (a b : list T) (orders : list Z) (k : Z) : res (Z * T * T) :=
  M <- lget orders k ;;
  start <- lget a k ;;
  bk <- lget b k ;;
  dinv <- divE (n_ofZ M -! n_ofZ 1) (bk -! start) ;;
  Ok (M, start, dinv).

(** eval_cubic_numba.py 5058-5061 / 5170-5177: cell index, coordinate in the cell; value and
    derivative weights. *)
Definition g_cell (x : T) (D : Z * T * T) : Z * (list T * list T) :=
  let '(M, start, dinv) := D in
  let u := (x -! start) *! dinv in
  let i := n_floor u in
  let i := Z.max (Z.min i (M - 2)) 0 in
  let t := u -! n_ofZ i in
  (i, (map (g_phi t) [0; 1; 2; 3], map (g_dphi t dinv) [0; 1; 2; 3])).

(** eval_cubic_numba.py 5141-5154 / 5290-5420: the nested sum over the 4^d coefficients around the
    cell, with the derivative weights in dimension [m] (none when [m = -1]). *)
Fixpoint g_weights (m : Z) (cells : list (Z * (list T * list T))) : list (list T) :=
  match cells with
  | [] => []
  | (_, (ph, dph)) :: r => (if m =? 0 then dph else ph) :: g_weights (m - 1) r
  end.
Definition g_sum (coefs : arr T) (cells : list (Z * (list T * list T))) (m k : Z) : res T :=
  trex (g_weights m cells) (fun inds => aget coefs (map2 Z.add (map fst cells) inds ++ [k])) [].

(** The body of the loop over the points and of the loop over the splines. *)
Definition g_store (coefs : arr T) (d n : Z) (cells : list (Z * (list T * list T)))
  (st : arr T * arr T) (k : Z) : res (arr T * arr T) :=
  v <- g_sum coefs cells (-1) k ;;
  vals <- aset (fst st) [n; k] v ;;
  dvals <- foldM (fun dv m => w <- g_sum coefs cells m k ;; aset dv [n; m; k] w) (zrange d) (snd st) ;;
  Ok (vals, dvals).
Definition g_point (dims : list (Z * T * T)) (coefs points : arr T) (n_vals d : Z)
  (st : arr T * arr T) (n : Z) : res (arr T * arr T) :=
  xs <- mapM (fun k => aget points [n; k]) (zrange d) ;;
  foldM (g_store coefs d n (map2 g_cell xs dims)) (zrange n_vals) st.

(** eval_cubic_numba.py 5047-5151 (d=1), 5154-5419 (2), 5422-6184 (3), 6187-9078 (4). *)
Definition splines_G (d : Z) (a b : list T) (orders : list Z) (coefs points vals dvals : arr T)
  : res (arr T * arr T) :=
  n_vals <- adim coefs d ;;
  N <- adim points 0 ;;
  dims <- mapM (g_dim a b orders) (zrange d) ;;
  foldM (g_point dims coefs points n_vals d) (zrange N) (vals, dvals).

(** eval_cubic.py 166-193 [vec_eval_cubic_splines_G].  [junk] is the content of [numpy.empty];
    for d > 4 the arrays are returned as they are. *)
Definition vec_eval_cubic_splines_G (junk : list Z -> T) (a b : list T) (orders : list Z)
  (mcoefs points : arr T) (values dvalues : option (arr T)) : res (arr T * arr T) :=
  let d := zlen a in
  N <- adim points 0 ;;
  n_sp <- adim mcoefs (andim mcoefs - 1) ;;
  let values := match values with Some v => v | None => mkArr [N; n_sp] junk end in
  let dvalues := match dvalues with Some v => v | None => mkArr [N; d; n_sp] junk end in
  if (1 <=? d) && (d <=? 4) then splines_G d a b orders mcoefs points values dvalues
  else Ok (values, dvalues).

End Model.
