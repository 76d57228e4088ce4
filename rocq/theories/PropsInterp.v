(** Properties C23-C26: [mlinterp] and [interp] (interpolation/multilinear). *)
From Coq Require Import ZArith List Bool Reals QArith.
From Verif Require Import Base SplineModel Spec InterpModel SpecInterp ExampleData InterpProps InterpCases.
Import ListNotations.
Open Scope Z_scope.

(** C23: at one point [mlinterp] and [eval_linear] return the same value. *)
Theorem C23_mlinterp_point grid (C : arr R) pt r :
  valid_grid grid -> coefs_ok 1 grid [] C -> length pt = length grid ->
  mlinterp grid C (P1 pt) = Ok r <-> eval_linear grid C (P1 pt) None None = Ok (r, None).
Proof. exact (mlinterp_point_eval grid C pt r). Qed.
Print Assumptions C23_mlinterp_point.
Example C23_point_case :
  valid_grid exg /\ coefs_ok 1 exg [] exC /\ exists v, mlinterp exg exC (P1 [7; -3]%R) = Ok (VNum v).
Proof. exact ex_C23. Qed.
Example C23_computed : qval (mlinterp qg qC (P1 [1 # 3; 2]%Q)) = Some (47 # 3)%Q.
Proof. vm_compute. reflexivity. Qed.

(** C23: at N points they return equal arrays. *)
Theorem C23_mlinterp_rows grid (C : arr R) points N :
  valid_grid grid -> coefs_ok 1 grid [] C -> ashape points = [N; zlen grid] -> 0 <= N ->
  exists a b, mlinterp grid C (P2 points) = Ok (VArr a) /\
    eval_linear grid C (P2 points) None None = Ok (VArr b, None) /\ aeq a b.
Proof. exact (mlinterp_rows_eval grid C points N). Qed.
Print Assumptions C23_mlinterp_rows.
Example C23_rows_computed :
  qvals (mlinterp qg qC (P2 qP)) [[0]; [1]] = qcells (eval_linear qg qC (P2 qP) None None) [[0]; [1]] /\
  qvals (mlinterp qg qC (P2 qP)) [[0]; [1]] = Some [10 # 3; 22 # 3]%Q.
Proof. vm_compute. split; reflexivity. Qed.

(** C24: [interp] at a tuple is [eval_linear] with nearest extrapolation, it always returns a
    number, the data at the nodes, a value within the range of the data everywhere, and beyond
    the grid the value at the closest point of the domain. *)
Theorem C24_interp_is_nearest axes grid (C : arr R) pt v :
  axes_of axes grid -> grid <> [] -> valid_grid grid -> coefs_ok 1 grid [] C -> length pt = length grid ->
  interp_tuple axes C pt = Ok (VNum v) <-> value_linear (Some XNearest) grid [] C pt [] v.
Proof. exact (interp_is_nearest axes grid C pt v). Qed.
Print Assumptions C24_interp_is_nearest.
Example C24_case : axes_of exaxes exg /\ valid_grid exg /\ coefs_ok 1 exg [] exC /\
  exists v, interp_tuple exaxes exC [7; -3]%R = Ok (VNum v).
Proof. exact ex_C24. Qed.

Theorem C24_interp_at_node axes grid (C : arr R) idx :
  axes_of axes grid -> grid <> [] -> valid_grid grid -> coefs_ok 1 grid [] C -> inb (ashape C) idx = true ->
  interp_tuple axes C (node_at grid idx) = Ok (VNum (acell C idx)).
Proof. exact (interp_at_node axes grid C idx). Qed.
Print Assumptions C24_interp_at_node.
Example C24_node_computed : qval (interp_tuple qaxes qC [1 # 2; 3]%Q) = Some 21%Q /\ Qred (acell qC [1; 2]) = 21%Q.
Proof. vm_compute. split; reflexivity. Qed.

Theorem C24_interp_range axes grid (C : arr R) m M pt v :
  axes_of axes grid -> grid <> [] -> valid_grid grid -> coefs_ok 1 grid [] C -> length pt = length grid ->
  (forall idx, inb (ashape C) idx = true -> (m <= acell C idx <= M)%R) ->
  interp_tuple axes C pt = Ok (VNum v) -> (m <= v <= M)%R.
Proof. exact (interp_range axes grid C m M pt v). Qed.
Print Assumptions C24_interp_range.
Example C24_range_computed : qval (interp_tuple qaxes qC [1000; -1000]%Q) = Some 4%Q.
Proof. vm_compute. reflexivity. Qed.

Theorem C24_interp_constant_outside axes grid (C : arr R) pt q :
  axes_of axes grid -> grid <> [] -> valid_grid grid -> coefs_ok 1 grid [] C -> length pt = length grid ->
  closest grid pt q -> interp_tuple axes C pt = interp_tuple axes C q.
Proof. exact (interp_constant_outside axes grid C pt q). Qed.
Print Assumptions C24_interp_constant_outside.
Example C24_outside_computed :
  qval (interp_tuple qaxes qC [1 # 3; 20]%Q) = qval (interp_tuple qaxes qC [1 # 3; 3]%Q) /\
  qval (interp_tuple qaxes qC [1 # 3; 20]%Q) = Some (62 # 3)%Q.
Proof. vm_compute. split; reflexivity. Qed.

(** C25: every other call form evaluates the tuple form at the points it means. *)
Theorem C25_scalars {T} {NT : Num T} axes grid (C : arr T) pt :
  axes_of axes grid -> grid <> [] -> andim C = zlen grid -> length pt = length grid ->
  interp (axes ++ AArr C :: map AScalar pt) = interp_tuple axes C pt.
Proof. exact (interp_scalars axes grid C pt). Qed.
Print Assumptions C25_scalars.
Example C25_scalars_case : axes_of qaxes qg /\ andim qC = zlen qg /\
  qval (interp (qaxes ++ AArr qC :: map AScalar [1 # 3; 2]%Q)) = Some (47 # 3)%Q.
Proof. split; [exact qaxes_ok|]. vm_compute. split; reflexivity. Qed.

Theorem C25_point_array {T} {NT : Num T} axes grid (C a : arr T) n :
  axes_of axes grid -> 2 <= zlen grid -> andim C = zlen grid -> ashape a = [n] -> zlen grid <= n ->
  interp (axes ++ [AArr C; AArr a]) = interp_tuple axes C (map (fun i => acell a [i]) (zrange (zlen grid))).
Proof. exact (interp_point_array axes grid C a n). Qed.
Print Assumptions C25_point_array.
Example C25_point_array_case : axes_of qaxes qg /\
  qval (interp (qaxes ++ [AArr qC; AArr (qa [1 # 3; 2]%Q)])) = Some (47 # 3)%Q.
Proof. split; [exact qaxes_ok|]. vm_compute. reflexivity. Qed.

Theorem C25_rows {T} {NT : Num T} axes grid (C a : arr T) N p :
  axes_of axes grid -> grid <> [] -> andim C = zlen grid -> ashape a = [N; p] -> 0 <= N -> zlen grid <= p ->
  tabulates (interp (axes ++ [AArr C; AArr a])) [N]
    (fun idx => interp_tuple axes C (row_of (zlen grid) a (hd 0 idx))).
Proof. exact (interp_rows axes grid C a N p). Qed.
Print Assumptions C25_rows.
Example C25_rows_case : axes_of qaxes qg /\
  qvals (interp (qaxes ++ [AArr qC; AArr qP])) [[0]; [1]] = Some [10 # 3; 22 # 3]%Q.
Proof. split; [exact qaxes_ok|]. vm_compute. reflexivity. Qed.

Theorem C25_array_1d {T} {NT : Num T} e g (C a : arr T) N :
  axis_of e g -> andim C = 1 -> ashape a = [N] -> 0 <= N ->
  tabulates (interp [e; AArr C; AArr a]) [N] (fun idx => interp_tuple [e] C [acell a idx]).
Proof. exact (interp_1d_array e g C a N). Qed.
Print Assumptions C25_array_1d.
Example C25_array_1d_case :
  qvals (interp [ADim 0 1 3; AArr (qa [5; 7; 1]); AArr (qa [-1; 1 # 4; 3 # 4; 2])]%Q) [[0]; [1]; [2]; [3]] =
  Some [5; 6; 4; 1]%Q.
Proof. vm_compute. reflexivity. Qed.

Theorem C25_cartesian {T} {NT : Num T} e1 e2 g1 g2 (C ax ay : arr T) N M :
  axis_of e1 g1 -> axis_of e2 g2 -> andim C = 2 -> ashape ax = [N] -> ashape ay = [M] -> 0 <= N -> 0 <= M ->
  tabulates (interp [e1; e2; AArr C; AArr ax; AArr ay]) [N; M]
    (fun idx => interp_tuple [e1; e2] C [acell ax [hd 0 idx]; acell ay (tl idx)]).
Proof. exact (interp_cartesian e1 e2 g1 g2 C ax ay N M). Qed.
Print Assumptions C25_cartesian.
Example C25_cartesian_case :
  qvals (interp (qaxes ++ [AArr qC; AArr (qa [0; 1 # 3]); AArr (qa [0; 2; 3])])%Q) [[0; 0]; [0; 1]; [0; 2]; [1; 1]] =
  Some [0; 15; 20; 47 # 3]%Q.
Proof. vm_compute. reflexivity. Qed.

(** C25: vector values are rejected; so is one array per axis beyond two dimensions. *)
Theorem C25_vector_rejected {T} {NT : Num T} axes grid (C : arr T) ea :
  axes_of axes grid -> grid <> [] -> andim C = zlen grid + 1 ->
  ea <> [] -> (zlen grid = 1 -> zlen ea = 1) -> Forall (fun e => arg_ndim e <= 2) ea ->
  exists e, interp (axes ++ AArr C :: ea) = Err e.
Proof. exact (interp_vector_rejected axes grid C ea). Qed.
Print Assumptions C25_vector_rejected.
Example C25_vector_case : axes_of qaxes qg /\ andim qV = zlen qg + 1 /\
  interp (qaxes ++ [AArr qV; ATuple [1 # 3; 2]%Q]) = Err TypeErr.
Proof. split; [exact qaxes_ok|]. vm_compute. split; reflexivity. Qed.

Theorem C25_cartesian_rejected {T} {NT : Num T} axes grid (C : arr T) ea :
  axes_of axes grid -> 3 <= zlen grid -> andim C = zlen grid ->
  2 <= zlen ea -> Forall (fun e => is_arr e = true) ea -> Forall (fun e => arg_ndim e <= 1) ea ->
  exists e, interp (axes ++ AArr C :: ea) = Err e.
Proof. exact (interp_cartesian_rejected axes grid C ea). Qed.
Print Assumptions C25_cartesian_rejected.
Example C25_cartesian_rejected_case :
  interp ([ADim 0 1 2; ADim 0 1 2; ADim 0 1 2; AArr (azeros [2; 2; 2]%Z);
           AArr (qa [0; 1]); AArr (qa [0; 1]); AArr (qa [0; 1])])%Q = Err TypeErr.
Proof. vm_compute. reflexivity. Qed.

(** C26: monotone in any coordinate along which the data are non-decreasing (1-d: g1 = g2 = []). *)
Theorem C26_monotone g1 g g2 axes (C : arr R) p1 x y p2 v w :
  let grid := g1 ++ g :: g2 in
  axes_of axes grid -> valid_grid grid -> coefs_ok 1 grid [] C ->
  length p1 = length g1 -> length p2 = length g2 ->
  (forall i1 i i2, inb (ashape C) (i1 ++ i :: i2) = true -> inb (ashape C) (i1 ++ (i + 1) :: i2) = true ->
     length i1 = length g1 -> (acell C (i1 ++ i :: i2) <= acell C (i1 ++ (i + 1)%Z :: i2))%R) ->
  interp_tuple axes C (p1 ++ x :: p2) = Ok (VNum v) ->
  interp_tuple axes C (p1 ++ y :: p2) = Ok (VNum w) ->
  (x <= y)%R -> (v <= w)%R.
Proof. exact (interp_monotone g1 g g2 axes C p1 x y p2 v w). Qed.
Print Assumptions C26_monotone.
Example C26_case : axes_of exaxes ([Unif 0 1 3]%R ++ Nonunif [0; 1; 3]%R :: []) /\
  (forall i1 i i2, inb (ashape exC) (i1 ++ i :: i2) = true -> inb (ashape exC) (i1 ++ (i + 1) :: i2) = true ->
     length i1 = 1%nat -> (acell exC (i1 ++ i :: i2) <= acell exC (i1 ++ (i + 1)%Z :: i2))%R).
Proof. exact ex_C26. Qed.
