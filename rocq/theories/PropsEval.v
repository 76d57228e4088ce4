(** Properties C01-C12, C19, C21, C22 of evaluation (eval_linear, eval_cubic, eval_spline). *)
From Coq Require Import ZArith List Bool Reals QArith Lia Lra PrimFloat.
From Verif Require Import Base BaseFacts SplineModel Spec EvalProps EvalExact EvalValue EvalR EvalRProps ExampleData EvalCases.
Import ListNotations.
Open Scope Z_scope.

(** Every valid call returns, in every call form, and the value is determined by the point. *)
Theorem C51_valid_calls_return k orders xm grid comps C :
  valid_grid grid -> kgrid_ok k grid -> coefs_ok k grid comps C -> diff_ok k grid orders ->
  exists F : list R -> list Z -> R, forall pt suf,
    length pt = length grid -> inb (result_shape comps orders) suf = true ->
    forall v, value_at k orders xm grid comps C pt suf v <-> v = F pt suf.
Proof. exact (valid_calls_return k orders xm grid comps C). Qed.
Print Assumptions C51_valid_calls_return.
Example C51_case : valid_grid exu /\ kgrid_ok 3 exu /\ coefs_ok 3 exu [] exK /\ diff_ok 3 exu (Some [[0; 0]; [1; 0]]).
Proof. exact ex_cubic_hyps. Qed.

(** C01 *)
Theorem C01_linear_exact_at_nodes xm grid comps (C : arr R) idx suf :
  valid_grid grid -> coefs_ok 1 grid comps C ->
  inb (map gsize grid) idx = true -> inb comps suf = true ->
  value_at 1 None xm grid comps C (node_at grid idx) suf (acell C (idx ++ suf)).
Proof. exact (linear_at_node xm grid comps C idx suf). Qed.
Print Assumptions C01_linear_exact_at_nodes.
Theorem C01_eval_linear_exact_at_nodes mode grid comps (C : arr R) idx suf :
  valid_grid grid -> coefs_ok 1 grid comps C ->
  inb (map gsize grid) idx = true -> inb comps suf = true ->
  value_linear mode grid comps C (node_at grid idx) suf (acell C (idx ++ suf)).
Proof. exact (eval_linear_at_node mode grid comps C idx suf). Qed.
Print Assumptions C01_eval_linear_exact_at_nodes.
Example C01_case : value_linear None exg [2] exV [1; 3]%R [1] 124%R.
Proof. exact ex_C01. Qed.
Example C01_computed : qnum (eval_linear qg qC (P1 [1; 3]%Q) None None) = Some 24%Q.
Proof. vm_compute. reflexivity. Qed.

(** C02 *)
Theorem C02_linear_reproduces_multi_affine xm grid comps (C : arr R) f pt suf :
  valid_grid grid -> coefs_ok 1 grid comps C -> inb comps suf = true ->
  multi_affine (length grid) f ->
  (forall idx, inb (map gsize grid) idx = true -> acell C (idx ++ suf) = f (node_at grid idx)) ->
  length pt = length grid -> (xm = XLinear \/ in_domain grid pt) ->
  value_at 1 None xm grid comps C pt suf (f pt).
Proof. exact (linear_multi_affine xm grid comps C f pt suf). Qed.
Print Assumptions C02_linear_reproduces_multi_affine.
Theorem C02_eval_linear_reproduces_multi_affine mode grid comps (C : arr R) f pt suf :
  valid_grid grid -> coefs_ok 1 grid comps C -> inb comps suf = true ->
  multi_affine (length grid) f ->
  (forall idx, inb (map gsize grid) idx = true -> acell C (idx ++ suf) = f (node_at grid idx)) ->
  length pt = length grid -> (default_mode mode = XLinear \/ in_domain grid pt) ->
  value_linear mode grid comps C pt suf (f pt).
Proof. exact (eval_linear_multi_affine mode grid comps C f pt suf). Qed.
Print Assumptions C02_eval_linear_reproduces_multi_affine.
Example C02_case : multi_affine 2 ex_bilinear /\
  value_linear None exg [] (ex_sample ex_bilinear) [7; -3]%R [] (ex_bilinear [7; -3]%R).
Proof. exact ex_C02. Qed.

(** C03 *)
Theorem C03_linear_stays_in_range xm grid comps (C : arr R) m M pt suf v :
  valid_grid grid -> coefs_ok 1 grid comps C -> inb comps suf = true ->
  length pt = length grid ->
  (in_domain grid pt \/ xm = XNearest) ->
  (forall idx, inb (map gsize grid) idx = true -> (m <= acell C (idx ++ suf) <= M)%R) ->
  value_at 1 None xm grid comps C pt suf v -> (m <= v <= M)%R.
Proof. exact (linear_range xm grid comps C m M pt suf v). Qed.
Print Assumptions C03_linear_stays_in_range.
Theorem C03_eval_linear_stays_in_range mode grid comps (C : arr R) m M pt suf v :
  valid_grid grid -> coefs_ok 1 grid comps C -> inb comps suf = true ->
  length pt = length grid ->
  (in_domain grid pt \/ mode = Some XNearest) ->
  (forall idx, inb (map gsize grid) idx = true -> (m <= acell C (idx ++ suf) <= M)%R) ->
  value_linear mode grid comps C pt suf v -> (m <= v <= M)%R.
Proof. exact (eval_linear_range mode grid comps C m M pt suf v). Qed.
Print Assumptions C03_eval_linear_stays_in_range.
Example C03_case : in_domain exg [1 / 3; 2]%R /\
  (forall idx, inb (map gsize exg) idx = true -> (0 <= acell exC (idx ++ []) <= 24)%R) /\
  exists v, value_at 1 None XLinear exg [] exC [1 / 3; 2]%R [] v.
Proof. exact ex_C03. Qed.

(** C04, any arithmetic *)
Theorem C04_eval_memory_safe (T : Type) (NT : Num T) k orders xm grid comps (C : arr T) points out :
  coefs_ok k grid comps C -> grid_sizes_ok grid -> orders_ok grid orders -> points_ok grid points ->
  (forall o, out = Some o ->
     match points with
     | P1 _ => ashape o = result_shape comps orders \/ (comps = [] /\ orders = None)
     | P2 a => ashape o = hd 0 (ashape a) :: result_shape comps orders
     end) ->
  eval_spline k orders xm grid C points out <> Err IndexErr.
Proof. exact (eval_memory_safe k orders xm grid comps C points out). Qed.
Print Assumptions C04_eval_memory_safe.
Example C04_case : coefs_ok 1 fg [] fC /\ grid_sizes_ok fg /\ points_ok fg (P1 [nan; infinity]).
Proof. exact ex_C04. Qed.
Example C04_computed : is_ok (eval_linear fg fC (P1 [nan; infinity]) None None) = true.
Proof. vm_compute. reflexivity. Qed.

(** C05, any arithmetic *)
Theorem C05_rows_are_points (T : Type) (NT : Num T) k orders xm grid comps (C : arr T) points o N n :
  coefs_ok k grid comps C ->
  single_point_form xm grid comps orders ->
  ashape points = [N; zlen grid] ->
  eval_spline k orders xm grid C (P2 points) None = Ok (VArr o, None) ->
  0 <= n < N ->
  ashape o = N :: result_shape comps orders /\
  exists r, eval_spline k orders xm grid C (P1 (row_of (zlen grid) points n)) None = Ok (r, None) /\
    match comps, orders with
    | [], None => r = VNum (acell o [n])
    | [], Some os => r = VTuple (map (fun j => acell o [n; j]) (zrange (zlen os)))
    | _, _ => exists a, r = VArr a /\ ashape a = result_shape comps orders /\
                        forall suf, inb (result_shape comps orders) suf = true ->
                          acell a suf = acell o (n :: suf)
    end.
Proof. exact (rows_are_points k orders xm grid comps C points o N n). Qed.
Print Assumptions C05_rows_are_points.
Example C05_case : is_ok (eval_spline 3 (Some [[0; 0]; [1; 0]]) XNearest qu qK (P2 qP) None) = true /\
  coefs_ok 3 qu [] qK /\ single_point_form XNearest qu [] (Some [[0; 0]; [1; 0]]).
Proof. exact ex_C05. Qed.

(** C06, any arithmetic *)
Theorem C06_inplace_rows (T : Type) (NT : Num T) k orders xm grid comps (C : arr T) points o out N :
  coefs_ok k grid comps C ->
  ashape points = [N; zlen grid] -> 0 <= N ->
  ashape out = N :: result_shape comps orders ->
  eval_spline k orders xm grid C (P2 points) None = Ok (VArr o, None) ->
  exists out', eval_spline k orders xm grid C (P2 points) (Some out) = Ok (VNone, Some out') /\ aeq o out'.
Proof. exact (inplace_rows k orders xm grid comps C points o out N). Qed.
Print Assumptions C06_inplace_rows.
(** Full statement: the same for one point, in all modes and call forms.  Missing because
    false: CONSTANT mode ([C06_inplace_point_refuted]), and scalar results without [diff],
    where [out] is ignored ([C06_inplace_scalar_ignored]). *)
Theorem C06_inplace_point_partial (T : Type) (NT : Num T) k orders xm grid comps (C : arr T) pt r out :
  coefs_ok k grid comps C -> grid_sizes_ok grid ->
  xm <> XConstant -> (comps <> [] \/ orders <> None) ->
  ashape out = result_shape comps orders ->
  eval_spline k orders xm grid C (P1 pt) None = Ok (r, None) ->
  exists out', eval_spline k orders xm grid C (P1 pt) (Some out) = Ok (VNone, Some out') /\
    ashape out' = ashape out /\
    match r with
    | VArr a => aeq a out'
    | VTuple l => l = map (fun j => acell out' [j]) (zrange (zlen l))
    | _ => False
    end.
Proof. exact (inplace_point k orders xm grid comps C pt r out). Qed.
Print Assumptions C06_inplace_point_partial.
(** CONSTANT mode, one point outside of the domain: the allocating call returns zeros, the
    in-place call leaves something else in [out]. *)
Theorem C06_inplace_point_refuted :
  exists (grid : list (gdim Q)) C pt a out out',
    coefs_ok 1 grid [2] C /\ grid_sizes_ok grid /\ ashape out = result_shape [2] None /\
    eval_spline 1 None XConstant grid C (P1 pt) None = Ok (VArr a, None) /\
    eval_spline 1 None XConstant grid C (P1 pt) (Some out) = Ok (VNone, Some out') /\
    ~ (acell a [0%Z] == acell out' [0%Z])%Q.
Proof. exact inplace_point_refuted. Qed.
Print Assumptions C06_inplace_point_refuted.
(** What the in-place CONSTANT call does instead: vector values get LINEAR extrapolation. *)
Theorem C06_inplace_constant_is_linear (T : Type) (NT : Num T) k orders grid nx (C : arr T) pt a out :
  coefs_ok k grid [nx] C -> grid_sizes_ok grid -> all_uniform grid ->
  ashape out = result_shape [nx] orders ->
  eval_spline k orders XLinear grid C (P1 pt) None = Ok (VArr a, None) ->
  exists out', eval_spline k orders XConstant grid C (P1 pt) (Some out) = Ok (VNone, Some out') /\ aeq a out'.
Proof. exact (inplace_constant_is_linear k orders grid nx C pt a out). Qed.
Print Assumptions C06_inplace_constant_is_linear.
(** Scalar values with [diff]: outside of the domain [out] is not written. *)
Theorem C06_inplace_constant_scalar_outside (T : Type) (NT : Num T) k os grid (C : arr T) pt out r i a b n x :
  coefs_ok k grid [] C -> grid_sizes_ok grid -> all_uniform grid -> length pt = length grid ->
  eval_spline k (Some os) XLinear grid C (P1 pt) None = Ok (r, None) ->
  nth_error grid i = Some (Unif a b n) -> nth_error pt i = Some x ->
  n_ltb x a || n_ltb b x = true ->
  eval_spline k (Some os) XConstant grid C (P1 pt) (Some out) = Ok (VNum (n_ofZ 0), Some out).
Proof. exact (inplace_constant_scalar_outside' k os grid C pt out r i a b n x). Qed.
Print Assumptions C06_inplace_constant_scalar_outside.
(** Scalar values without [diff]: [out] is ignored and the number is returned. *)
Theorem C06_inplace_scalar_ignored (T : Type) (NT : Num T) k xm grid (C : arr T) pt out v :
  coefs_ok k grid [] C ->
  eval_spline k None xm grid C (P1 pt) None = Ok (v, None) ->
  eval_spline k None xm grid C (P1 pt) (Some out) = Ok (v, Some out).
Proof. exact (inplace_scalar_ignored k xm grid C pt out v). Qed.
Print Assumptions C06_inplace_scalar_ignored.
Example C06_case :
  qcells (eval_spline 1 None XNearest qu qVu (P1 [2; 0]%Q) None) [[0]; [1]] = Some [19; 119]%Q /\
  qouts (eval_spline 1 None XNearest qu qVu (P1 [2; 0]%Q) (Some (mkArr [2] (fun _ => 77%Q)))) [[0]; [1]] = Some [19; 119]%Q.
Proof. vm_compute. split; reflexivity. Qed.
Example C06_case_constant :
  qcells (eval_spline 1 None XConstant qu qVu (P1 [2; 0]%Q) None) [[0]; [1]] = Some [0; 0]%Q /\
  qouts (eval_spline 1 None XConstant qu qVu (P1 [2; 0]%Q) (Some (mkArr [2] (fun _ => 77%Q)))) [[0]; [1]] = Some [25; 125]%Q.
Proof. vm_compute. split; reflexivity. Qed.

(** C07, any arithmetic *)
Theorem C07_vector_rows (T : Type) (NT : Num T) k orders xm grid nx (C : arr T) points o N j :
  coefs_ok k grid [nx] C -> grid_sizes_ok grid ->
  ashape points = [N; zlen grid] -> 0 <= N -> 0 <= j < nx ->
  eval_spline k orders xm grid C (P2 points) None = Ok (VArr o, None) ->
  exists oj, eval_spline k orders xm grid (component k grid C j) (P2 points) None = Ok (VArr oj, None) /\
    ashape oj = N :: result_shape [] orders /\
    forall n suf, inb (ashape oj) (n :: suf) = true -> acell oj (n :: suf) = acell o (n :: j :: suf).
Proof. exact (vector_rows k orders xm grid nx C points o N j). Qed.
Print Assumptions C07_vector_rows.
Theorem C07_vector_point (T : Type) (NT : Num T) k orders xm grid nx (C : arr T) pt a j :
  coefs_ok k grid [nx] C -> grid_sizes_ok grid ->
  single_point_form xm grid [] orders -> 0 <= j < nx ->
  eval_spline k orders xm grid C (P1 pt) None = Ok (VArr a, None) ->
  exists r, eval_spline k orders xm grid (component k grid C j) (P1 pt) None = Ok (r, None) /\
    r = match orders with
        | None => VNum (acell a [j])
        | Some os => VTuple (map (fun i => acell a [j; i]) (zrange (zlen os)))
        end.
Proof. exact (vector_point k orders xm grid nx C pt a j). Qed.
Print Assumptions C07_vector_point.
Example C07_case : coefs_ok 1 qg [2] qV /\ grid_sizes_ok qg /\
  is_ok (eval_spline 1 (Some [[0; 0]; [1; 0]]) XConstant qg qV (P2 qP) None) = true.
Proof. exact ex_C07. Qed.

(** C08 *)
Theorem C08_nearest_is_value_at_closest_point k orders xm grid comps (C : arr R) pt q suf v :
  valid_grid grid -> kgrid_ok k grid -> coefs_ok k grid comps C -> diff_ok k grid orders ->
  length pt = length grid -> inb (result_shape comps orders) suf = true ->
  closest grid pt q ->
  value_at k orders XNearest grid comps C pt suf v <-> value_at k orders xm grid comps C q suf v.
Proof. exact (nearest_is_projection k orders xm grid comps C pt q suf v). Qed.
Print Assumptions C08_nearest_is_value_at_closest_point.
(** The closest point exists and is unique. *)
Theorem C08_closest_point_exists grid pt :
  valid_grid grid -> length pt = length grid -> exists! q, closest grid pt q.
Proof. exact (closest_exists grid pt). Qed.
Print Assumptions C08_closest_point_exists.
Example C08_case : closest exg [7; 1 / 2]%R [1; 1 / 2]%R.
Proof. exact ex_C08. Qed.

(** C09 (one point in place: [C06_inplace_point_refuted]) *)
Theorem C09_constant_zero_outside k orders grid comps (C : arr R) pt suf :
  valid_grid grid -> kgrid_ok k grid -> coefs_ok k grid comps C -> diff_ok k grid orders ->
  length pt = length grid -> inb (result_shape comps orders) suf = true ->
  ~ in_domain grid pt -> value_at k orders XConstant grid comps C pt suf 0%R.
Proof. exact (constant_zero_outside k orders grid comps C pt suf). Qed.
Print Assumptions C09_constant_zero_outside.
Theorem C09_constant_invisible_inside k orders xm grid comps (C : arr R) pt suf v :
  valid_grid grid -> kgrid_ok k grid -> coefs_ok k grid comps C -> diff_ok k grid orders ->
  inb (result_shape comps orders) suf = true -> in_domain grid pt ->
  value_at k orders XConstant grid comps C pt suf v <-> value_at k orders xm grid comps C pt suf v.
Proof. exact (constant_same_inside k orders xm grid comps C pt suf v). Qed.
Print Assumptions C09_constant_invisible_inside.
Example C09_case : ~ in_domain exg [1 / 2; 4]%R /\ in_domain exg [1 / 2; 3]%R.
Proof. exact ex_C09. Qed.

(** C10 *)
Theorem C10_linear_extrapolation_continues_slope k g1 g g2 comps (C : arr R) p1 p2 suf F :
  valid_grid (g1 ++ g :: g2) -> kgrid_ok k (g1 ++ g :: g2) -> coefs_ok k (g1 ++ g :: g2) comps C ->
  inb comps suf = true -> length p1 = length g1 -> length p2 = length g2 ->
  (forall t, value_at k None XLinear (g1 ++ g :: g2) comps C (p1 ++ t :: p2) suf (F t)) ->
  (exists m, left_slope F (ghi g) m /\
     forall t, (ghi g <= t)%R -> (F t = F (ghi g) + m * (t - ghi g))%R) /\
  (exists m, right_slope F (glo g) m /\
     forall t, (t <= glo g)%R -> (F t = F (glo g) + m * (t - glo g))%R).
Proof. exact (linear_extrapolation k g1 g g2 comps C p1 p2 suf F). Qed.
Print Assumptions C10_linear_extrapolation_continues_slope.
Example C10_case : exists F, forall t, value_at 3 None XLinear exu [] exK ([1 / 3] ++ t :: [])%R [] (F t).
Proof. exact ex_C10. Qed.

(** C11 *)
Theorem C11_linear_in_coefficients k orders xm grid comps (C C' : arr R) s t pt suf v v' :
  valid_grid grid -> kgrid_ok k grid -> coefs_ok k grid comps C -> coefs_ok k grid comps C' ->
  diff_ok k grid orders -> length pt = length grid -> inb (result_shape comps orders) suf = true ->
  value_at k orders xm grid comps C pt suf v -> value_at k orders xm grid comps C' pt suf v' ->
  value_at k orders xm grid comps (alin s C t C') pt suf (s * v + t * v')%R.
Proof. exact (eval_linear_in_coefs k orders xm grid comps C C' s t pt suf v v'). Qed.
Print Assumptions C11_linear_in_coefficients.
Example C11_case : exists v, value_at 3 (Some [[0; 0]; [1; 1]]) XNearest exu [] exK [7; 1 / 3]%R [1] v.
Proof. exact ex_C11. Qed.

(** C12 *)
Theorem C12_interpolant_continuous k xm grid comps (C : arr R) suf F :
  valid_grid grid -> kgrid_ok k grid -> coefs_ok k grid comps C -> inb comps suf = true ->
  xm <> XConstant ->
  (forall q, length q = length grid -> value_at k None xm grid comps C q suf (F q)) ->
  forall p, length p = length grid -> continuous_at F p.
Proof. exact (eval_continuous k xm grid comps C suf F). Qed.
Print Assumptions C12_interpolant_continuous.
Example C12_case : exists F, forall q, length q = length exg -> value_at 1 None XNearest exg [] exC q [] (F q).
Proof. exact ex_C12. Qed.

(** C19 *)
Theorem C19_cubic_partial_derivative g1 g g2 comps (C : arr R) p1 p2 os j os' j' o1 o2 comp F G :
  let grid := g1 ++ g :: g2 in
  valid_grid grid -> all_uniform grid -> coefs_ok 3 grid comps C ->
  diff_ok 3 grid (Some os) -> diff_ok 3 grid (Some os') ->
  inb comps comp = true -> length p1 = length g1 -> length p2 = length g2 -> length o1 = length g1 ->
  nth_error os j = Some (o1 ++ 0 :: o2) -> nth_error os' j' = Some (o1 ++ 1 :: o2) ->
  (forall t, value_at 3 (Some os) XLinear grid comps C (p1 ++ t :: p2) (comp ++ [Z.of_nat j]) (F t)) ->
  (forall t, value_at 3 (Some os') XLinear grid comps C (p1 ++ t :: p2) (comp ++ [Z.of_nat j']) (G t)) ->
  forall t, derivable_pt_lim F t (G t).
Proof. exact (cubic_partial_derivative g1 g g2 comps C p1 p2 os j os' j' o1 o2 comp F G). Qed.
Print Assumptions C19_cubic_partial_derivative.
(** The entry with all orders zero is the value itself, so the theorem above reaches every
    multi-index of zeros and ones from the value. *)
Theorem C19_zero_orders_is_value k xm grid comps (C : arr R) pt os j comp v :
  valid_grid grid -> kgrid_ok k grid -> coefs_ok k grid comps C -> diff_ok k grid (Some os) ->
  length pt = length grid -> inb comps comp = true ->
  nth_error os j = Some (map (fun _ => 0) grid) ->
  value_at k (Some os) xm grid comps C pt (comp ++ [Z.of_nat j]) v <->
  value_at k None xm grid comps C pt comp v.
Proof. exact (zero_orders k xm grid comps C pt os j comp v). Qed.
Print Assumptions C19_zero_orders_is_value.
Example C19_case : exists F G,
  (forall t, value_at 3 (Some [[1; 0]; [1; 1]]) XLinear exu [] exK ([1 / 3] ++ t :: [])%R ([] ++ [Z.of_nat 0]) (F t)) /\
  (forall t, value_at 3 (Some [[1; 0]; [1; 1]]) XLinear exu [] exK ([1 / 3] ++ t :: [])%R ([] ++ [Z.of_nat 1]) (G t)).
Proof. exact ex_C19. Qed.

(** C21 *)
Theorem C21_linear_partial_nonuniform g1 gc g2 comps (C : arr R) p1 p2 os os' j j' o1 o2 comp F G t :
  let grid := g1 ++ Nonunif gc :: g2 in
  valid_grid grid -> coefs_ok 1 grid comps C ->
  diff_ok 1 grid (Some os) -> diff_ok 1 grid (Some os') ->
  inb comps comp = true -> length p1 = length g1 -> length p2 = length g2 -> length o1 = length g1 ->
  nth_error os j = Some (o1 ++ 0 :: o2) -> nth_error os' j' = Some (o1 ++ 1 :: o2) ->
  (forall t, value_at 1 (Some os) XLinear grid comps C (p1 ++ t :: p2) (comp ++ [Z.of_nat j]) (F t)) ->
  (forall t, value_at 1 (Some os') XLinear grid comps C (p1 ++ t :: p2) (comp ++ [Z.of_nat j']) (G t)) ->
  ~ In t gc -> derivable_pt_lim F t (G t).
Proof. exact (linear_partial_nonuniform g1 gc g2 comps C p1 p2 os os' j j' o1 o2 comp F G t). Qed.
Print Assumptions C21_linear_partial_nonuniform.
(** Orders two and more (any dimension): the derivative of the previous order. *)
Theorem C21_linear_higher_orders g1 g g2 comps (C : arr R) p1 p2 os os' j j' o1 o2 comp F G l t :
  let grid := g1 ++ g :: g2 in
  valid_grid grid -> coefs_ok 1 grid comps C ->
  diff_ok 1 grid (Some os) -> diff_ok 1 grid (Some os') ->
  inb comps comp = true -> length p1 = length g1 -> length p2 = length g2 -> length o1 = length g1 ->
  nth_error os j = Some (o1 ++ l :: o2) -> nth_error os' j' = Some (o1 ++ l + 1 :: o2) ->
  (forall t, value_at 1 (Some os) XLinear grid comps C (p1 ++ t :: p2) (comp ++ [Z.of_nat j]) (F t)) ->
  (forall t, value_at 1 (Some os') XLinear grid comps C (p1 ++ t :: p2) (comp ++ [Z.of_nat j']) (G t)) ->
  1 <= l -> (forall i, 0 <= i < gsize g -> t <> gnode g i) -> derivable_pt_lim F t (G t).
Proof. exact (linear_partial_high' g1 g g2 comps C p1 p2 os os' j j' o1 o2 comp F G l t). Qed.
Print Assumptions C21_linear_higher_orders.
Example C21_case : exists F G,
  (forall t, value_at 1 (Some [[0; 0]; [0; 1]]) XLinear exg [] exC ([1 / 3] ++ t :: [])%R ([] ++ [Z.of_nat 0]) (F t)) /\
  (forall t, value_at 1 (Some [[0; 0]; [0; 1]]) XLinear exg [] exC ([1 / 3] ++ t :: [])%R ([] ++ [Z.of_nat 1]) (G t)) /\
  ~ In (5 / 2)%R [0; 1; 3]%R.
Proof. exact ex_C21. Qed.

(** C22 is false: on a uniform dimension the returned number is the true derivative times
    the square of the spacing (exactly), so it is wrong unless the spacing is 1 (or the
    derivative is 0). *)
Theorem C22_linear_partial_uniform_is_scaled g1 a b n g2 comps (C : arr R) p1 p2 os os' j j' o1 o2 comp F G t :
  let grid := g1 ++ Unif a b n :: g2 in
  valid_grid grid -> coefs_ok 1 grid comps C ->
  diff_ok 1 grid (Some os) -> diff_ok 1 grid (Some os') ->
  inb comps comp = true -> length p1 = length g1 -> length p2 = length g2 -> length o1 = length g1 ->
  nth_error os j = Some (o1 ++ 0 :: o2) -> nth_error os' j' = Some (o1 ++ 1 :: o2) ->
  (forall t, value_at 1 (Some os) XLinear grid comps C (p1 ++ t :: p2) (comp ++ [Z.of_nat j]) (F t)) ->
  (forall t, value_at 1 (Some os') XLinear grid comps C (p1 ++ t :: p2) (comp ++ [Z.of_nat j']) (G t)) ->
  (forall i, 0 <= i < n -> t <> gnode (Unif a b n) i) ->
  let h := ((b - a) / (IZR n - 1))%R in
  exists D, derivable_pt_lim F t D /\ G t = (h * h * D)%R.
Proof. exact (linear_partial_uniform g1 a b n g2 comps C p1 p2 os os' j j' o1 o2 comp F G t). Qed.
Print Assumptions C22_linear_partial_uniform_is_scaled.
Theorem C22_linear_partial_uniform_refuted :
  exists (grid : list (gdim R)) C F G t,
    valid_grid grid /\ all_uniform grid /\ coefs_ok 1 grid [] C /\
    (forall t, value_at 1 (Some [[0]; [1]]) XLinear grid [] C [t] [0] (F t)) /\
    (forall t, value_at 1 (Some [[0]; [1]]) XLinear grid [] C [t] [1] (G t)) /\
    (forall i, 0 <= i < 3 -> [t] <> node_at grid [i]) /\
    ~ derivable_pt_lim F t (G t).
Proof. exact linear_partial_uniform_refuted. Qed.
Print Assumptions C22_linear_partial_uniform_refuted.
Example C22_computed :
  let u := [Unif 0%Q 1%Q 3] in let c := mkArr [3] (fun idx => match idx with [i] => inject_Z i | _ => 0%Q end) in
  qtuple (eval_spline 1 (Some [[0]; [1]]) XLinear u c (P1 [1 # 4]%Q) None) = Some [1 # 2; 1 # 2]%Q /\
  qtuple (eval_spline 1 (Some [[0]; [1]]) XLinear u c (P1 [1 # 8]%Q) None) = Some [1 # 4; 1 # 2]%Q.
Proof. vm_compute. split; reflexivity. Qed.

(** C52 is false: the default mode is LINEAR (C02 above, with [mode = None]). *)
Theorem C52_default_is_nearest_refuted :
  exists (grid : list (gdim Q)) C pt v w,
    coefs_ok 1 grid [] C /\ grid_sizes_ok grid /\
    eval_linear grid C (P1 pt) None None = Ok (VNum v, None) /\
    eval_linear grid C (P1 pt) None (Some XNearest) = Ok (VNum w, None) /\ ~ (v == w)%Q.
Proof. exact default_is_nearest_refuted. Qed.
Print Assumptions C52_default_is_nearest_refuted.
