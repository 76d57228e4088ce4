(** Model of interpolation/splines/splines.py, interpolation/splines/multilinear.py, the
    remaining functions of filter_cubic.py and the compatibility calls of eval_cubic.py and
    multilinear_numba.py.  Definitions only. *)
From Coq Require Import ZArith List Bool.
From Verif Require Import Base SplineModel PrefilterModel ArrayModel CartesianModel GradModel.
Import ListNotations.
Open Scope Z_scope.
Open Scope num_scope.

Section Model.
Context {T : Type} {NT : Num T}.

(** ** filter_cubic.py *)

(** filter_cubic.py 192-197 [filter_coeffs(smin, smax, orders, data)].  Arrays of different
    lengths are rejected (numpy would broadcast arrays of length one). *)
Definition filter_coeffs (smin smax : list T) (orders : list Z) (data : arr T) : res (option (arr T)) :=
  diff <- mapM2 (fun x y => Ok (y -! x)) smin smax ;;
  dinv <- mapM2 (fun x n => Ok (x /! n_ofZ n)) diff orders ;;
  data <- areshape data orders ;;
  filter_data dinv data.

(** [a[..., i]] *)
Definition acomp (a : arr T) (i : Z) : res (arr T) :=
  n <- adim a (andim a - 1) ;;
  if (0 <=? i) && (i <? n) then Ok (mkArr (removelast (ashape a)) (fun idx => acell a (idx ++ [i])))
  else Err IndexErr.
(** [a[..., i] = v] for an array [v] of the same shape. *)
Definition aset_comp (a : arr T) (i : Z) (v : arr T) : res (arr T) :=
  if idx_eqb (ashape v) (removelast (ashape a))
  then Ok (mkArr (ashape a) (fun idx => if last idx (-1) =? i then acell v (removelast idx) else acell a idx))
  else Err ValueErr.
(** [a[..., i] = x] for a number *)
Definition afill_comp (a : arr T) (i : Z) (x : T) : arr T :=
  mkArr (ashape a) (fun idx => if last idx (-1) =? i then x else acell a idx).

(** filter_cubic.py 200-206 [filter_mcoeffs(smin, smax, orders, data)].  [nan] is the float NaN:
    numpy stores None, the result of filter_data for d >= 5, as NaN. *)
Definition filter_mcoeffs (nan : T) (smin smax : list T) (orders : list Z) (data : arr T) : res (arr T) :=
  n_splines <- adim data (andim data - 1) ;;
  foldM (fun coefs i =>
           di <- acomp data i ;;
           c <- filter_coeffs smin smax orders di ;;
           match c with
           | Some c => aset_comp coefs i c
           | None => Ok (afill_comp coefs i nan)
           end)
        (zrange n_splines) (azeros (map (fun i => i + 2) orders ++ [n_splines])).

(** ** eval_cubic.py and multilinear_numba.py *)

(** eval_cubic.py 17-34 [get_grid(a, b, n, C)]: [d = C.ndim]. *)
Definition get_grid (a b : list T) (n : list Z) (d : Z) : res (list (gdim T)) :=
  mapM (fun k => x <- lget a k ;; y <- lget b k ;; m <- lget n k ;; Ok (Unif x y m)) (zrange d).

(** eval_cubic.py 37-59 [eval_cubic_spline] *)
Definition eval_cubic_spline (a b : list T) (orders : list Z) (coefs : arr T) (point : pts T) : res (pyval T) :=
  grid <- get_grid a b orders (andim coefs) ;;
  r <- eval_cubic grid coefs point None None ;; Ok (fst r).
(** eval_cubic.py 62-90 [vec_eval_cubic_spline]: value returned, final [values]. *)
Definition vec_eval_cubic_spline (a b : list T) (orders : list Z) (coefs : arr T) (points : pts T)
  (values : option (arr T)) : res (pyval T * option (arr T)) :=
  grid <- get_grid a b orders (andim coefs) ;;
  match values with
  | None => eval_cubic grid coefs points None None
  | Some v => r <- eval_cubic grid coefs points (Some v) None ;; Ok (VNone, snd r)
  end.
(** eval_cubic.py 93-122 [eval_cubic_splines], 125-154 [vec_eval_cubic_splines] (the same text). *)
Definition eval_cubic_splines (a b : list T) (orders : list Z) (mcoefs : arr T) (points : pts T)
  (values : option (arr T)) : res (pyval T * option (arr T)) :=
  c0 <- acomp mcoefs 0 ;;
  grid <- get_grid a b orders (andim c0) ;;
  match values with
  | None => eval_cubic grid mcoefs points None None
  | Some v => r <- eval_cubic grid mcoefs points (Some v) None ;; Ok (VNone, snd r)
  end.

(** multilinear_numba.py 9-15: the name [values] of line 15 is not defined. *)
Definition vec_multilinear_interpolation (smin smax : list T) (orders : list Z) (mvalues : arr T) (s : pts T)
  (out : option (arr T)) : res (pyval T * option (arr T)) :=
  c0 <- acomp mvalues 0 ;;
  grid <- get_grid smin smax orders (andim c0) ;;
  match out with
  | None => eval_linear grid mvalues s None None
  | Some _ => Err NameErr
  end.
(** multilinear_numba.py 18-24 *)
Definition multilinear_interpolation (smin smax : list T) (orders : list Z) (values : arr T) (s : pts T)
  (out : option (arr T)) : res (pyval T * option (arr T)) :=
  grid <- get_grid smin smax orders (andim values) ;;
  match out with
  | None => eval_linear grid values s None None
  | Some o => r <- eval_linear grid values s (Some o) None ;; Ok (VNone, snd r)
  end.

(** ** Finite tests *)
Fixpoint all_idx (sh : list Z) : list (list Z) :=
  match sh with
  | [] => [[]]
  | n :: r => flat_map (fun i => map (cons i) (all_idx r)) (zrange n)
  end.
(** [np.all(np.isfinite(a))] *)
Definition all_finite (a : arr T) : bool := forallb (fun idx => n_finite (acell a idx)) (all_idx (ashape a)).
Definition finite_pts (p : pts T) : bool := match p with P1 x => forallb n_finite x | P2 a => all_finite a end.

(** [tuple((a[i], b[i], orders[i]) for i in range(len(a)))] *)
Definition obj_grid (a b : list T) (orders : list Z) : res (list (gdim T)) := get_grid a b orders (zlen a).

(** [numpy.atleast_2d(s)] of a vector *)
Definition atleast_2d (x : list T) : arr T :=
  mkArr [1; zlen x] (fun idx => nth (Z.to_nat (last idx 0)) x (n_ofZ 0)).
(** [res[0]] of the result of a call with rows *)
Definition first_row (r : pyval T) : res (pyval T) :=
  match r with
  | VArr a =>
      match ashape a with
      | n :: sh => if 0 <? n then Ok (match sh with [] => VNum (acell a [0]) | _ => VArr (mkArr sh (fun idx => acell a (0 :: idx))) end)
                   else Err IndexErr
      | [] => Err IndexErr
      end
  | _ => Err TypeErr
  end.
(** [res.ravel()] *)
Definition ravel_val (r : pyval T) : res (pyval T) :=
  match r with VArr a => a <- areshape a [zprod (ashape a)] ;; Ok (VArr a) | _ => Err TypeErr end.

(** ** CubicSpline (splines.py 9-122) *)
(** Attributes.  [cs_coeffs = None] is the value None of the attribute. *)
Record cubic := mkCS { cs_a : list T; cs_b : list T; cs_orders : list Z; cs_values : option (arr T); cs_coeffs : option (arr T) }.

(** splines.py 50-68 [set_values]: new state, outcome.  np.array copies the argument. *)
Definition cs_set (s : cubic) (values : arr T) : cubic * res unit :=
  if negb (all_finite values) then (s, Err ValueErr)
  else match areshape values (cs_orders s) with
       | Err e => (s, Err e)
       | Ok v =>
           let s := mkCS (cs_a s) (cs_b s) (cs_orders s) (Some v) (cs_coeffs s) in
           match filter_coeffs (cs_a s) (cs_b s) (cs_orders s) v with
           | Err e => (s, Err e)
           | Ok c => (mkCS (cs_a s) (cs_b s) (cs_orders s) (Some v) c, Ok tt)
           end
       end.

(** splines.py 17-48 [__init__] *)
Definition cs_new (a b : list T) (orders : list Z) (values : option (arr T)) : res cubic :=
  if negb (zlen b =? zlen a) || negb (zlen orders =? zlen a) then Err AssertErr
  else
    let s := mkCS a b orders None None in
    match values with
    | None => Ok s
    | Some v => let '(s, r) := cs_set s v in _ <- r ;; Ok s
    end.

(** splines.py 70-105 [interpolate(points, values, with_derivatives)]; [junk] is the content of
    np.empty.  A None in place of the coefficients is a typing error of eval_cubic. *)
Definition cs_interpolate (junk : list Z -> T) (s : cubic) (points : pts T) (values : option (arr T))
  (with_derivatives : bool) : res (pyval T) :=
  grid <- obj_grid (cs_a s) (cs_b s) (cs_orders s) ;;
  if negb (finite_pts points) then Err ValueErr
  else if with_derivatives then Err NotImplErr
  else
    match points with
    | P1 _ =>
        match cs_coeffs s with
        | None => Err TypeErr
        | Some c => r <- eval_cubic grid c points None None ;; Ok (fst r)
        end
    | P2 p =>
        match ashape p with
        | [N; d] =>
            if negb (d =? zlen (cs_a s)) then Err AssertErr
            else
              let values := match values with Some v => v | None => mkArr [N] junk end in
              match cs_coeffs s with
              | None => Err TypeErr
              | Some c =>
                  r <- eval_cubic grid c points (Some values) None ;;
                  match snd r with Some v => Ok (VArr v) | None => Err TypeErr end
              end
        | _ => Err ValueErr
        end
    end.

(** splines.py 115-122 [__call__] *)
Definition cs_call (junk : list Z -> T) (s : cubic) (points : pts T) : res (pyval T) :=
  match points with
  | P1 x => r <- cs_interpolate junk s (P2 (atleast_2d x)) None false ;; first_row r
  | P2 _ => cs_interpolate junk s points None false
  end.

(** splines.py 107-113 / 203-208 [grid] (cached in [__grid__], which nothing else uses). *)
Definition cs_grid (a b : list T) (orders : list Z) : res (arr T) := mlinspace a b orders OrderC.

(** ** CubicSplines (splines.py 125-230) *)
Record cubics := mkMCS { mcs_a : list T; mcs_b : list T; mcs_orders : list Z; mcs_values : option (arr T); mcs_coeffs : option (arr T) }.

(** splines.py 144-159 [set_values] *)
Definition mcs_set (nan : T) (s : cubics) (mvalues : arr T) : cubics * res unit :=
  match
    n_sp <- adim mvalues (andim mvalues - 1) ;;
    v <- areshape mvalues (mcs_orders s ++ [n_sp]) ;;
    if negb (all_finite v) then Err ValueErr
    else c <- filter_mcoeffs nan (mcs_a s) (mcs_b s) (mcs_orders s) v ;; Ok (v, c)
  with
  | Err e => (s, Err e)
  | Ok (v, c) => (mkMCS (mcs_a s) (mcs_b s) (mcs_orders s) (Some v) (Some c), Ok tt)
  end.

(** splines.py 131-142 [__init__] *)
Definition mcs_new (nan : T) (a b : list T) (orders : list Z) (values : option (arr T)) : res cubics :=
  if negb (zlen b =? zlen a) || negb (zlen orders =? zlen a) then Err AssertErr
  else
    let s := mkMCS a b orders None None in
    match values with
    | None => Ok s
    | Some v => let '(s, r) := mcs_set nan s v in _ <- r ;; Ok s
    end.

(** splines.py 161-201 [interpolate(points, diff)]: the values, and the gradient if [diff].
    Without coefficients: None has no attribute shape. *)
Definition mcs_interpolate (junk : list Z -> T) (s : cubics) (points : pts T) (diff : bool)
  : res (pyval T * option (arr T)) :=
  match points with
  | P1 _ => Err ValueErr
  | P2 p =>
      d <- adim p 1 ;;
      if negb (d =? zlen (mcs_a s)) then Err ValueErr
      else if negb (all_finite p) then Err ValueErr
      else
        match mcs_coeffs s with
        | None => Err NameErr
        | Some c =>
            n_sp <- adim c (andim c - 1) ;;
            N <- adim p 0 ;;
            if negb diff then
              grid <- obj_grid (mcs_a s) (mcs_b s) (mcs_orders s) ;;
              r <- eval_cubic grid c points (Some (mkArr [N; n_sp] junk)) None ;;
              match snd r with Some v => Ok (VArr v, None) | None => Err TypeErr end
            else
              '(v, dv) <- vec_eval_cubic_splines_G junk (mcs_a s) (mcs_b s) (mcs_orders s) c p
                            (Some (mkArr [N; n_sp] junk)) (Some (mkArr [N; d; n_sp] junk)) ;;
              Ok (VArr v, Some dv)
        end
  end.

(** splines.py 210-230 [__call__] *)
Definition mcs_call (junk : list Z -> T) (s : cubics) (points : pts T) : res (pyval T) :=
  match points with
  | P1 x => r <- mcs_interpolate junk s (P2 (atleast_2d x)) false ;; ravel_val (fst r)
  | P2 _ => r <- mcs_interpolate junk s points false ;; Ok (fst r)
  end.

(** ** LinearSpline and LinearSplines (multilinear.py) *)

(** The arrays of the caller: [nd_plain] says whether an array is C-contiguous of type float64.
    [values.reshape(..)] of such an array is a view, and numpy.ascontiguousarray returns its
    argument unchanged: the object then shares the memory of the caller.  Otherwise it copies. *)
Record nd := mkNd { nd_plain : bool; nd_arr : arr T }.
Definition memory := nat -> nd.
Inductive store := Own (a : arr T) | View (id : nat) (sh : list Z).
Definition read_store (m : memory) (st : store) : res (arr T) :=
  match st with Own a => Ok a | View id sh => areshape (nd_arr (m id)) sh end.

(** [ls_multi]: LinearSplines (attribute mvalues) instead of LinearSpline (attribute values). *)
Record linear := mkLS { ls_multi : bool; ls_smin : list T; ls_smax : list T; ls_orders : list Z; ls_values : option store }.

(** multilinear.py 80-82 / 160-164 [set_values] *)
Definition ls_set (m : memory) (s : linear) (id : nat) : linear * res unit :=
  let v := m id in
  match
    sh <- (if ls_multi s then n_x <- adim (nd_arr v) (andim (nd_arr v) - 1) ;; Ok (ls_orders s ++ [n_x])
           else Ok (ls_orders s)) ;;
    a <- areshape (nd_arr v) sh ;;
    Ok (if nd_plain v then View id sh else Own a)
  with
  | Err e => (s, Err e)
  | Ok st => (mkLS (ls_multi s) (ls_smin s) (ls_smax s) (ls_orders s) (Some st), Ok tt)
  end.

(** multilinear.py 65-72 / 145-152 [__init__] *)
Definition ls_new (m : memory) (multi : bool) (smin smax : list T) (orders : list Z) (values : option nat) : res linear :=
  let s := mkLS multi smin smax orders None in
  match values with
  | None => Ok s
  | Some v => let '(s, r) := ls_set m s v in _ <- r ;; Ok s
  end.

(** multilinear.py 84-92 / 166-174 [interpolate(s)].  Without values: AttributeError. *)
Definition ls_interpolate (m : memory) (s : linear) (points : pts T) : res (pyval T) :=
  grid <- obj_grid (ls_smin s) (ls_smax s) (ls_orders s) ;;
  st <- match ls_values s with Some st => Ok st | None => Err NameErr end ;;
  v <- read_store m st ;;
  r <- eval_linear grid v points None None ;;
  Ok (fst r).

(** multilinear.py 94-98 / 176-181 [__call__] *)
Definition ls_call (m : memory) (s : linear) (points : pts T) : res (pyval T) :=
  match points with
  | P1 x => r <- ls_interpolate m s (P2 (atleast_2d x)) ;; if ls_multi s then ravel_val r else first_row r
  | P2 _ => ls_interpolate m s points
  end.

(** multilinear.py 7-18 [mlinspace]: for one dimension numpy.linspace gets an array as number of
    points, a TypeError; otherwise row i contains coordinate i of the nodes in C order. *)
Definition ml_mlinspace (smin smax : list T) (orders : list Z) : res (arr T) :=
  if zlen orders =? 1 then Err TypeErr
  else
    axes <- mapM (fun i => x <- lget smin i ;; y <- lget smax i ;; n <- lget orders i ;; linspace x y n)
                 (zrange (zlen orders)) ;;
    if zlen orders =? 0 then Err ValueErr
    else
      let sh := map zlen axes in
      Ok (mkArr [zlen orders; zprod sh]
            (fun idx => match idx with
                        | [i; r] => nth (Z.to_nat (nth (Z.to_nat i) (unravel sh r) 0)) (nth (Z.to_nat i) axes []) (n_ofZ 0)
                        | _ => n_ofZ 0
                        end)).

End Model.
Arguments memory : clear implicits.
Arguments store : clear implicits.
Arguments linear : clear implicits.
Arguments cubic : clear implicits.
Arguments cubics : clear implicits.
Arguments nd : clear implicits.
