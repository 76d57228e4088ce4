(** Model of interpolation/splines/hermite.py.  Definitions only. *)
From Coq Require Import ZArith List Bool.
From Verif Require Import Base SplineModel.
Import ListNotations.
Open Scope Z_scope.
Open Scope num_scope.

Section Model.
Context {T : Type} {NT : Num T}.

(** hermite.py 11-20 [hermite_splines(lambda0)].  Simplification: lambda0**2 and lambda0**3 are
    written as products. *)
Definition hermite_splines (l : T) : T * T * T * T :=
  let l2 := l *! l in
  let l3 := l *! l *! l in
  let h00 := n_ofZ 2 *! l3 -! n_ofZ 3 *! l2 +! n_ofZ 1 in
  let h10 := l3 -! n_ofZ 2 *! l2 +! l in
  let h01 := n_ofZ (-2) *! l3 +! n_ofZ 3 *! l2 in
  let h11 := l3 -! l2 in
  (h00, h10, h01, h11).

(** hermite.py 23-44 [hermite_interp(x0, xk, xkn, pk, pkn, mk, mkn)]. *)
Definition hermite_interp (x0 xk xkn pk pkn mk mkn : T) : res T :=
  t <- divE (x0 -! xk) (xkn -! xk) ;;
  let '(h0, h1, h2, h3) := hermite_splines t in
  Ok (pk *! h0 +! mk *! (xkn -! xk) *! h1 +! pkn *! h2 +! mkn *! (xkn -! xk) *! h3).

(** [np.min(x)], [np.max(x)] (no NaN); an empty array raises ValueError. *)
Definition npmin (l : list T) : res T :=
  match l with [] => Err ValueErr | a :: r => Ok (fold_left pymin r a) end.
Definition npmax (l : list T) : res T :=
  match l with [] => Err ValueErr | a :: r => Ok (fold_left pymax r a) end.

(** [a[i]] with Python's negative indices. *)
Definition pyget (l : list T) (i : Z) : res T := if i <? 0 then lget l (zlen l + i) else lget l i.

(** hermite.py 47-66 [HermiteInterpolation(x0, x, y, yp)]. *)
Definition hermite_interpolation (x0 : T) (x y yp : list T) : res T :=
  lo <- npmin x ;;
  if x0 <=?! lo then pyget y 0
  else
    hi <- npmax x ;;
    if hi <=?! x0 then pyget y (-1)
    else
      let indx := searchsorted x x0 in
      xk <- pyget x (indx - 1) ;; xkn <- pyget x indx ;;
      pk <- pyget y (indx - 1) ;; pkn <- pyget y indx ;;
      mk <- pyget yp (indx - 1) ;; mkn <- pyget yp indx ;;
      hermite_interp x0 xk xkn pk pkn mk mkn.

(** hermite.py 69-82 [HermiteInterpolationVect(xvect, x, y, yp)]. *)
Definition hermite_vect (xvect : list T) (x y yp : list T) : res (arr T) :=
  let N := zlen xvect in
  foldM (fun out i => x0 <- lget xvect i ;; v <- hermite_interpolation x0 x y yp ;; aset out [i] v)
        (zrange N) (azeros [N]).

(** First argument of [hermite]: a number, a 1-d array or a 2-d array (arrays of more
    dimensions are taken for numbers and do not compile; not representable). *)
Inductive harg := HNum (x0 : T) | HVec (xs : list T) | HMat (a : arr T).

(** hermite.py 108-137 [hermite(x0, x, y, yp, out=None)]: [out] is never written. *)
Definition hermite (x0 : harg) (x y yp : list T) (out : option (arr T)) : res (pyval T * option (arr T)) :=
  match x0 with
  | HNum v => r <- hermite_interpolation v x y yp ;; Ok (VNum r, out)
  | HVec xs => r <- hermite_vect xs x y yp ;; Ok (VArr r, out)
  | HMat a =>
      match ashape a with
      | [N; p] => col <- mapM (fun n => aget a [n; 0]) (zrange N) ;;
                  r <- hermite_vect col x y yp ;; Ok (VArr r, out)
      | _ => Err TypeErr
      end
  end.
End Model.
Arguments harg : clear implicits.
