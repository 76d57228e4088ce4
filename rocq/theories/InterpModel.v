(** Model of interpolation/multilinear/fungen.py and mlinterp.py (functions [mlinterp] and
    [interp]).  Definitions only.  Functions generated as text for a given number of
    dimensions become recursions over the list of dimensions. *)
From Coq Require Import ZArith List Bool.
From Verif Require Import Base SplineModel.
Import ListNotations.
Open Scope Z_scope.
Open Scope num_scope.

Section Model.
Context {T : Type} {NT : Num T}.

(** fungen.py 22-24 [clamp(x, a, b)] on ints. *)
Definition clamp (x a b : Z) : Z := Z.min b (Z.max a x).

(** fungen.py 32-56 [get_index(gc, x)]: index and barycentric coordinate. *)
Definition get_index (g : gdim T) (x : T) : res (Z * T) :=
  match g with
  | Unif a b n =>
      dl <- divE (b -! a) (n_ofZ (n - 1)) ;;
      let d := x -! a in
      if n_is0 dl then Err ZeroDivErr
      else
        let i := clamp (n_floordiv d dl) 0 (n - 2) in
        let r := d -! n_ofZ i *! dl in
        lam <- divE r dl ;;
        Ok (i, lam)
  | Nonunif gc =>
      let N := zlen gc in
      let i := clamp (searchsorted gc x - 1) 0 (N - 2) in
      g0 <- lget gc i ;; g1 <- lget gc (i + 1) ;;
      lam <- divE (x -! g0) (g1 -! g0) ;;
      Ok (i, lam)
  end.

(** fungen.py 102-126 [fmap(f, t1, t2)]: tuples of different lengths are a typing error
    (this is [mapM2]); 160-173 [funzip]: on pairs, Coq's [split]. *)

(** Nested tuples built by [get_coeffs]. *)
Inductive tuptree := Leaf (x : T) | Pair (t0 t1 : tuptree).

(** fungen.py 188-212 [get_coeffs(X, I)]: X[I0 + e0, ..., Id + ed] for all e in {0,1}^d. *)
Fixpoint get_coeffs_from (X : arr T) (I pre : list Z) : res tuptree :=
  match I with
  | [] => v <- aget X pre ;; Ok (Leaf v)
  | i :: q =>
      t0 <- get_coeffs_from X q (pre ++ [i]) ;;
      t1 <- get_coeffs_from X q (pre ++ [i + 1]) ;;
      Ok (Pair t0 t1)
  end.
Definition get_coeffs (X : arr T) (I : list Z) : res tuptree :=
  if zlen I <? andim X then Err TypeErr else get_coeffs_from X I [].

(** fungen.py 221-248 [tensor_reduction(C, l)]: (1-h)*(...) + h*(...). *)
Fixpoint tensor_reduction (C : tuptree) (l : list T) : res T :=
  match l, C with
  | [], Leaf v => Ok v
  | h :: q, Pair t0 t1 =>
      v0 <- tensor_reduction t0 q ;; v1 <- tensor_reduction t1 q ;;
      Ok ((n_ofZ 1 -! h) *! v0 +! h *! v1)
  | _, _ => Err TypeErr
  end.

(** mlinterp.py 52-58: [mlinterp(grid, c, u)] for a tuple [u]. *)
Definition mlinterp_point (grid : list (gdim T)) (c : arr T) (u : list T) : res T :=
  tmp <- mapM2 get_index grid u ;;
  let '(indices, barycenters) := split tmp in
  coeffs <- get_coeffs c indices ;;
  tensor_reduction coeffs barycenters.

(** fungen.py 255-263 [extract_row(a, n, tup)]. *)
Definition extract_row (a : arr T) (n : Z) (grid : list (gdim T)) : res (list T) :=
  mapM (fun i => aget a [n; i]) (zrange (zlen grid)).

(** [res = zeros(N); for n in range(N): res[n] = f(n); return res] (mlinterp.py 63-72,
    178-184, 196-201). *)
Definition fill1 (N : Z) (f : Z -> res T) : res (arr T) :=
  foldM (fun r n => v <- f n ;; aset r [n] v) (zrange N) (azeros [N]).
(** [res = zeros((N,M)); for n..: for m..: res[n,m] = f(n,m)] (mlinterp.py 211-218). *)
Definition fill2 (N M : Z) (f : Z -> Z -> res T) : res (arr T) :=
  foldM (fun r n => foldM (fun r m => v <- f n m ;; aset r [n; m] v) (zrange M) r)
        (zrange N) (azeros [N; M]).

(** mlinterp.py 48-81 [mlinterp(grid, c, u)]: [u] a tuple (P1) or a 2-d array (P2).  A 1-d
    array is rejected by the code; it is not representable here. *)
Definition mlinterp (grid : list (gdim T)) (c : arr T) (u : pts T) : res (pyval T) :=
  match u with
  | P1 x => v <- mlinterp_point grid c x ;; Ok (VNum v)
  | P2 a =>
      if negb (andim a =? 2) then Err TypeErr
      else
        N <- adim a 0 ;;
        r <- fill1 N (fun n => uu <- extract_row a n grid ;; mlinterp_point grid c uu) ;;
        Ok (VArr r)
  end.

(** fungen.py 271-283 [project(grid, point)]: min(max(point[i], lo_i), hi_i), i < d. *)
Fixpoint project (grid : list (gdim T)) (point : list T) : res (list T) :=
  match grid, point with
  | [], _ => Ok []
  | g :: grid', x :: point' =>
      lohi <- match g with
              | Unif a b _ => Ok (a, b)
              | Nonunif gc => hi <- lget gc (zlen gc - 1) ;; lo <- lget gc 0 ;; Ok (lo, hi)
              end ;;
      rest <- project grid' point' ;;
      Ok (pymin (pymax x (fst lohi)) (snd lohi) :: rest)
  | _ :: _, [] => Err TypeErr
  end.

(** ** [interp( *args)] *)

(** Arguments: a float or int, a homogeneous tuple of floats (UniTuple), an array, a tuple
    (a, b, n) describing an evenly spaced axis. *)
Inductive iarg := AScalar (x : T) | ATuple (l : list T) | AArr (a : arr T) | ADim (a b : T) (n : Z).

Definition is_arr (e : iarg) : bool := match e with AArr _ => true | _ => false end.
Definition is_scalar (e : iarg) : bool := match e with AScalar _ => true | _ => false end.
Definition arg_ndim (e : iarg) : Z := match e with AArr a => andim a | _ => -1 end.

(** [dims.index(md)] *)
Fixpoint index_of (x : Z) (l : list Z) : Z :=
  match l with [] => 0 | y :: l' => if y =? x then 0 else 1 + index_of x l' end.

Inductive evaltype := Escalar | Etuple | Epoint | Evectorized | Ecartesian.

(** mlinterp.py 91-134 [detect_types(args)]: (d, values is a vector, eval type). *)
Definition detect_types (args : list iarg) : res (Z * bool * evaltype) :=
  let dims := map arg_ndim args in
  match dims with
  | [] => Err ValueErr
  | d0 :: _ =>
      let md := fold_left Z.max dims d0 in
      let i_C := if zlen args =? 3 then 1 else index_of md dims in
      let d := i_C in
      c <- lget args i_C ;;
      match c with
      | AArr a =>
          vec <- (if andim a =? d then Ok false
                  else if andim a =? d + 1 then Ok true else Err AssertErr) ;;
          let eval_args := skipn (Z.to_nat (i_C + 1)) args in
          ev <- match eval_args with
                | _ :: _ :: _ =>
                    if forallb is_arr eval_args
                    then if forallb (fun e => arg_ndim e =? 1) eval_args then Ok Ecartesian
                         else Err AssertErr
                    else if forallb is_scalar eval_args then Ok Escalar
                    else Err ValueErr
                | [AArr e] => if andim e =? 1 then Ok Epoint
                              else if andim e =? 2 then Ok Evectorized else Err ValueErr
                | [ATuple _] => Ok Etuple
                | [AScalar _] => Ok Escalar
                | [ADim _ _ _] => Err ValueErr
                | [] => Err IndexErr
                end ;;
          Ok (d, vec, ev)
      | _ => Err TypeErr
      end
  end.

(** An axis: an (a,b,n) tuple or a 1-d array (fungen.py 32-56, 271-279 reject the rest). *)
Definition to_dim (e : iarg) : res (gdim T) :=
  match e with
  | ADim a b n => Ok (Unif a b n)
  | AArr x =>
      match ashape x with
      | [n] => Ok (Nonunif (map (fun i => acell x [i]) (zrange n)))
      | _ => Err TypeErr
      end
  | _ => Err TypeErr
  end.
Definition as_scalar (e : iarg) : res T := match e with AScalar x => Ok x | _ => Err TypeErr end.
Definition as_arr (e : iarg) : res (arr T) := match e with AArr a => Ok a | _ => Err TypeErr end.

(** [ppoint = project(grid, point); mlinterp(grid, C, ppoint)] *)
Definition ml_nearest (grid : list (gdim T)) (C : arr T) (point : list T) : res T :=
  pp <- project grid point ;; mlinterp_point grid C pp.

(** mlinterp.py 137-222 [make_mlinterp(it, ...)] applied to the arguments, and 229-245
    [interp]: a 1-d "point" is an array of points. *)
Definition interp (args : list iarg) : res (pyval T) :=
  '(d, vec, ev) <- detect_types args ;;
  let ev := match ev with Epoint => if d =? 1 then Ecartesian else Epoint | e => e end in
  if vec || (d =? 0) then Err TypeErr   (* d = 0: the generated source "(,)" does not parse *)
  else
    grid <- mapM to_dim (firstn (Z.to_nat d) args) ;;
    c <- lget args d ;; C <- as_arr c ;;
    match ev with
    | Escalar =>
        point <- mapM (fun i => e <- lget args (d + i + 1) ;; as_scalar e) (zrange d) ;;
        v <- ml_nearest grid C point ;; Ok (VNum v)
    | Etuple =>
        e <- lget args (d + 1) ;;
        match e with
        | ATuple point => v <- ml_nearest grid C point ;; Ok (VNum v)
        | _ => Err TypeErr
        end
    | Epoint =>
        e <- lget args (d + 1) ;; a <- as_arr e ;;
        point <- mapM (fun i => aget a [i]) (zrange d) ;;
        v <- ml_nearest grid C point ;; Ok (VNum v)
    | Evectorized =>
        e <- lget args (d + 1) ;; a <- as_arr e ;;
        N <- adim a 0 ;;
        r <- fill1 N (fun n => p <- mapM (fun i => aget a [n; i]) (zrange d) ;; ml_nearest grid C p) ;;
        Ok (VArr r)
    | Ecartesian =>
        if d =? 1 then
          e <- lget args 2 ;; px <- as_arr e ;;
          N <- adim px 0 ;;
          r <- fill1 N (fun n => x <- aget px [n] ;; ml_nearest grid C [x]) ;;
          Ok (VArr r)
        else if d =? 2 then
          e <- lget args 3 ;; px <- as_arr e ;;
          e' <- lget args 4 ;; py <- as_arr e' ;;
          N <- adim px 0 ;; M <- adim py 0 ;;
          r <- fill2 N M (fun n m => x <- aget px [n] ;; y <- aget py [m] ;; ml_nearest grid C [x; y]) ;;
          Ok (VArr r)
        else Err TypeErr
    end.

End Model.
Arguments iarg : clear implicits.
