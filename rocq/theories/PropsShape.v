(** C73-C79: monotonicity, shape, units, axes, smoothness and locality of splines. *)
From Coq Require Import ZArith List Reals.
From Verif Require Import Base SplineModel PrefilterModel Spec SpecError SpecShape ExampleData EvalCases PrefilterCases ShapeR DecayR ShapeCases.
Import ListNotations.
Open Scope R_scope.

(** C73 *)
Theorem C73_monotone mode grid comps (C C' : arr R) pt suf v v' :
  valid_grid grid -> coefs_ok 1 grid comps C -> coefs_ok 1 grid comps C' -> inb comps suf = true ->
  length pt = length grid -> (in_domain grid pt \/ default_mode mode <> XLinear) ->
  (forall idx, inb (map gsize grid) idx = true -> acell C (idx ++ suf) <= acell C' (idx ++ suf)) ->
  value_linear mode grid comps C pt suf v -> value_linear mode grid comps C' pt suf v' -> v <= v'.
Proof. exact (linear_monotone mode grid comps C C' pt suf v v'). Qed.
Print Assumptions C73_monotone.
Theorem C73_nonexpansive mode grid comps (C C' : arr R) eps pt suf v v' :
  valid_grid grid -> coefs_ok 1 grid comps C -> coefs_ok 1 grid comps C' -> inb comps suf = true ->
  length pt = length grid -> (in_domain grid pt \/ default_mode mode <> XLinear) ->
  (forall idx, inb (map gsize grid) idx = true -> Rabs (acell C (idx ++ suf) - acell C' (idx ++ suf)) <= eps) ->
  value_linear mode grid comps C pt suf v -> value_linear mode grid comps C' pt suf v' -> Rabs (v - v') <= eps.
Proof. exact (linear_nonexpansive mode grid comps C C' eps pt suf v v'). Qed.
Print Assumptions C73_nonexpansive.
Theorem C73_monotone_outside_refuted : exists (C C' : arr R) v v',
  valid_grid [Unif 0 1 2] /\ coefs_ok 1 [Unif 0 1 2] [] C /\ coefs_ok 1 [Unif 0 1 2] [] C' /\
  (forall idx, inb [2%Z] idx = true -> acell C (idx ++ []) <= acell C' (idx ++ [])) /\
  value_linear None [Unif 0 1 2] [] C [2] [] v /\ value_linear None [Unif 0 1 2] [] C' [2] [] v' /\ v' < v.
Proof. exact linear_monotone_outside_refuted. Qed.
Print Assumptions C73_monotone_outside_refuted.
Example C73_case : exists v v', in_domain exg [3 / 4; 2] /\
  (forall idx, inb (map gsize exg) idx = true -> acell (ex_sample ex_bilinear) (idx ++ []) <= acell (ex_sample ex_up) (idx ++ [])) /\
  value_linear None exg [] (ex_sample ex_bilinear) [3 / 4; 2] [] v /\ value_linear None exg [] (ex_sample ex_up) [3 / 4; 2] [] v' /\
  v <= v' /\ Rabs (v - v') <= 1 / 2.
Proof. exact ex_C73. Qed.

(** C74 *)
Theorem C74_increasing mode g1 g g2 comps (C : arr R) p1 p2 suf x y v w :
  valid_grid (g1 ++ g :: g2) -> coefs_ok 1 (g1 ++ g :: g2) comps C -> inb comps suf = true ->
  in_domain g1 p1 -> in_domain g2 p2 -> (default_mode mode <> XConstant \/ in_dim g x /\ in_dim g y) ->
  increasing_along g1 g g2 C suf -> x <= y ->
  value_linear mode (g1 ++ g :: g2) comps C (p1 ++ x :: p2) suf v ->
  value_linear mode (g1 ++ g :: g2) comps C (p1 ++ y :: p2) suf w -> v <= w.
Proof. exact (linear_increasing mode g1 g g2 comps C p1 p2 suf x y v w). Qed.
Print Assumptions C74_increasing.
Theorem C74_convex mode g1 g g2 comps (C : arr R) p1 p2 suf x y t u v w :
  valid_grid (g1 ++ g :: g2) -> coefs_ok 1 (g1 ++ g :: g2) comps C -> inb comps suf = true ->
  in_domain g1 p1 -> in_domain g2 p2 -> (default_mode mode = XLinear \/ in_dim g x /\ in_dim g y) ->
  convex_along g1 g g2 C suf -> 0 <= t <= 1 ->
  value_linear mode (g1 ++ g :: g2) comps C (p1 ++ x :: p2) suf u ->
  value_linear mode (g1 ++ g :: g2) comps C (p1 ++ y :: p2) suf v ->
  value_linear mode (g1 ++ g :: g2) comps C (p1 ++ ((1 - t) * x + t * y) :: p2) suf w ->
  w <= (1 - t) * u + t * v.
Proof. exact (linear_convex mode g1 g g2 comps C p1 p2 suf x y t u v w). Qed.
Print Assumptions C74_convex.
Example C74_case : exists u v w, increasing_along [Unif 0 1 3] (Nonunif [0; 1; 3]) [] (ex_sample (parabola [2; 6])) [] /\
  convex_along [Unif 0 1 3] (Nonunif [0; 1; 3]) [] (ex_sample (parabola [2; 6])) [] /\
  value_linear None exg [] (ex_sample (parabola [2; 6])) [3 / 4; 1 / 2] [] u /\ value_linear None exg [] (ex_sample (parabola [2; 6])) [3 / 4; 5 / 2] [] v /\
  value_linear None exg [] (ex_sample (parabola [2; 6])) [3 / 4; 3 / 2] [] w /\ u <= v /\ w <= u / 2 + v / 2.
Proof. exact ex_C74. Qed.

(** C75 *)
Theorem C75_same_nodes mode grid grid' comps (C : arr R) pt suf v :
  valid_grid grid -> valid_grid grid' -> Forall2 same_nodes grid grid' ->
  coefs_ok 1 grid comps C -> inb comps suf = true -> length pt = length grid ->
  value_linear mode grid comps C pt suf v <-> value_linear mode grid' comps C pt suf v.
Proof. exact (linear_same_nodes mode grid grid' comps C pt suf v). Qed.
Print Assumptions C75_same_nodes.
Theorem C75_linspace a b n : valid_dim (Unif a b n) ->
  let gc := map (fun i => a + IZR i * ((b - a) / (IZR n - 1))) (zrange n) in
  valid_dim (Nonunif gc) /\ same_nodes (Unif a b n) (Nonunif gc).
Proof. exact (linspace_same a b n). Qed.
Print Assumptions C75_linspace.
Example C75_case : valid_grid [Nonunif [0; 1 / 2; 1]; Nonunif [0; 1; 3]] /\ Forall2 same_nodes exg [Nonunif [0; 1 / 2; 1]; Nonunif [0; 1; 3]] /\
  value_linear None [Nonunif [0; 1 / 2; 1]; Nonunif [0; 1; 3]] [2]%Z exV [1; 3] [1%Z] 124.
Proof. exact ex_C75. Qed.

(** C76 *)
Theorem C76_values k xm sts grid comps (C : arr R) pt suf v :
  valid_grid grid -> kgrid_ok k grid -> coefs_ok k grid comps C -> inb comps suf = true -> length pt = length grid ->
  Forall2 (fun st (g : gdim R) => 0 < fst st) sts grid ->
  value_at k None xm grid comps C pt suf v <->
  value_at k None xm (map2 rescale sts grid) comps C (map2 rescale_pt sts pt) suf v.
Proof. exact (value_rescale k xm sts grid comps C pt suf v). Qed.
Print Assumptions C76_values.
Theorem C76_derivatives xm sts grid comps (C : arr R) pt os j oo comp v :
  valid_grid grid -> all_uniform grid -> coefs_ok 3 grid comps C -> diff_ok 3 grid (Some os) ->
  inb comps comp = true -> length pt = length grid -> nth_error os j = Some oo ->
  Forall2 (fun st (g : gdim R) => 0 < fst st) sts grid ->
  value_at 3 (Some os) xm grid comps C pt (comp ++ [Z.of_nat j]) v ->
  value_at 3 (Some os) xm (map2 rescale sts grid) comps C (map2 rescale_pt sts pt) (comp ++ [Z.of_nat j]) (v / unit_factor sts oo).
Proof. exact (gradient_rescale xm sts grid comps C pt os j oo comp v). Qed.
Print Assumptions C76_derivatives.
Example C76_case : exists v w,
  value_at 3 None XLinear exu [] exK [7; 1 / 3] [] v /\
  value_at 3 None XLinear [Unif 5 7 3; Unif (-100) 100 4] [] exK [19; 100 / 3] [] v /\
  value_at 3 (Some [[0; 0]; [1; 1]]%Z) XLinear exu [] exK [7; 1 / 3] [1%Z] w /\
  value_at 3 (Some [[0; 0]; [1; 1]]%Z) XLinear [Unif 5 7 3; Unif (-100) 100 4] [] exK [19; 100 / 3] [1%Z] (w / 200).
Proof. exact ex_C76. Qed.

(** C77 *)
Theorem C77_values k xm g1 g h g2 comps (C C' : arr R) p1 x y p2 suf v :
  let grid := g1 ++ g :: h :: g2 in let grid' := g1 ++ h :: g :: g2 in
  valid_grid grid -> kgrid_ok k grid -> coefs_ok k grid comps C -> coefs_ok k grid' comps C' -> inb comps suf = true ->
  length p1 = length g1 -> length p2 = length g2 ->
  transposed (csize k) g1 g h g2 C C' suf ->
  value_at k None xm grid comps C (p1 ++ x :: y :: p2) suf v <->
  value_at k None xm grid' comps C' (p1 ++ y :: x :: p2) suf v.
Proof. exact (value_exchange k xm g1 g h g2 comps C C' p1 x y p2 suf v). Qed.
Print Assumptions C77_values.
Theorem C77_derivatives k xm g1 g h g2 comps (C C' : arr R) p1 x y p2 os os' jj jj' o1 l m o2 comp v :
  let grid := g1 ++ g :: h :: g2 in let grid' := g1 ++ h :: g :: g2 in
  valid_grid grid -> kgrid_ok k grid -> coefs_ok k grid comps C -> coefs_ok k grid' comps C' -> inb comps comp = true ->
  length p1 = length g1 -> length p2 = length g2 -> length o1 = length g1 -> length o2 = length g2 ->
  diff_ok k grid (Some os) -> diff_ok k grid' (Some os') ->
  nth_error os jj = Some (o1 ++ l :: m :: o2) -> nth_error os' jj' = Some (o1 ++ m :: l :: o2) ->
  transposed (csize k) g1 g h g2 C C' comp ->
  value_at k (Some os) xm grid comps C (p1 ++ x :: y :: p2) (comp ++ [Z.of_nat jj]) v <->
  value_at k (Some os') xm grid' comps C' (p1 ++ y :: x :: p2) (comp ++ [Z.of_nat jj']) v.
Proof. exact (gradient_exchange k xm g1 g h g2 comps C C' p1 x y p2 os os' jj jj' o1 l m o2 comp v). Qed.
Print Assumptions C77_derivatives.
Theorem C77_cubic_data mode g1 g h g2 comps (V V' C C' : arr R) p1 x y p2 suf v v' :
  let grid := g1 ++ g :: h :: g2 in let grid' := g1 ++ h :: g :: g2 in
  valid_grid grid -> all_uniform grid -> supported_dim grid -> values_ok grid comps V -> values_ok grid' comps V' -> inb comps suf = true ->
  in_domain g1 p1 -> in_dim g x -> in_dim h y -> in_domain g2 p2 ->
  transposed gsize g1 g h g2 V V' suf ->
  filter_cubic grid V None = Ok (VArr C, None) -> filter_cubic grid' V' None = Ok (VArr C', None) ->
  value_cubic mode grid comps C (p1 ++ x :: y :: p2) suf v ->
  value_cubic mode grid' comps C' (p1 ++ y :: x :: p2) suf v' -> v = v'.
Proof. exact (cubic_exchange mode g1 g h g2 comps V V' C C' p1 x y p2 suf v v'). Qed.
Print Assumptions C77_cubic_data.
Example C77_case : transposed gsize [] (Unif 0 1 3) (Unif (-1) 1 4) [] exW exW_t [1%Z] /\
  exists C C' v, filter_cubic exu exW None = Ok (VArr C, None) /\ filter_cubic exu_t exW_t None = Ok (VArr C', None) /\
  value_cubic None exu [2]%Z C [1 / 3; 1 / 7] [1%Z] v /\ value_cubic None exu_t [2]%Z C' [1 / 7; 1 / 3] [1%Z] v.
Proof. exact ex_C77. Qed.

(** C78 *)
Theorem C78_derivatives_continuous xm grid comps (C : arr R) os j oo comp F :
  valid_grid grid -> all_uniform grid -> coefs_ok 3 grid comps C -> diff_ok 3 grid (Some os) ->
  inb comps comp = true -> nth_error os j = Some oo -> xm <> XConstant ->
  (forall q, length q = length grid -> value_at 3 (Some os) xm grid comps C q (comp ++ [Z.of_nat j]) (F q)) ->
  forall p, length p = length grid -> continuous_at F p.
Proof. exact (derivatives_continuous xm grid comps C os j oo comp F). Qed.
Print Assumptions C78_derivatives_continuous.
Example C78_case : exists F, (forall q, length q = length exu -> value_at 3 (Some [[0; 0]; [1; 1]]%Z) XLinear exu [] exK q [1%Z] (F q)) /\
  continuous_at F [1 / 2; 1 / 3].
Proof. exact ex_C78. Qed.

(** C79 *)
Theorem C79_far_data mode mode' grid comps (V V' : arr R) C C' m eps pt suf v v' :
  valid_grid grid -> all_uniform grid -> supported_dim grid -> values_ok grid comps V -> values_ok grid comps V' ->
  inb comps suf = true -> in_domain grid pt ->
  (forall idx, inb (map gsize grid) idx = true -> Rabs (acell V (idx ++ suf) - acell V' (idx ++ suf)) <= eps) ->
  (forall idx, inb (map gsize grid) idx = true -> near_node m grid pt idx -> acell V (idx ++ suf) = acell V' (idx ++ suf)) ->
  filter_cubic grid V None = Ok (VArr C, None) -> filter_cubic grid V' None = Ok (VArr C', None) ->
  value_cubic mode grid comps C pt suf v -> value_cubic mode' grid comps C' pt suf v' ->
  Rabs (v - v') <= INR (length grid) * (5 / 2) ^ (length grid - 1) * (6 / 2 ^ m) * eps.
Proof. exact (cubic_local mode mode' grid comps V V' C C' m eps pt suf v v'). Qed.
Print Assumptions C79_far_data.
Example C79_case : exists C C' v v', values_ok ex_line [] (ex_bump 0) /\ values_ok ex_line [] (ex_bump 1) /\
  (forall idx, inb (map gsize ex_line) idx = true -> near_node 10 ex_line [10] idx -> acell (ex_bump 0) (idx ++ []) = acell (ex_bump 1) (idx ++ [])) /\
  filter_cubic ex_line (ex_bump 0) None = Ok (VArr C, None) /\ filter_cubic ex_line (ex_bump 1) None = Ok (VArr C', None) /\
  value_cubic None ex_line [] C [10] [] v /\ value_cubic None ex_line [] C' [10] [] v' /\ Rabs (v - v') <= 6 / 1024.
Proof. exact ex_C79. Qed.
