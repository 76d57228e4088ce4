(** C67-C70: error bounds, stability, minimal curvature. *)
From Coq Require Import ZArith List Reals.
From Coquelicot Require Import Coquelicot.
From Verif Require Import Base SplineModel PrefilterModel Spec SpecError ExampleData EvalCases PrefilterCases ErrorR CubicError CurvatureR ErrorCases.
Import ListNotations.
Open Scope R_scope.

(** C67 *)
Theorem C67_between_corners mode grid comps (C : arr R) c m M pt suf v :
  valid_grid grid -> coefs_ok 1 grid comps C -> inb comps suf = true -> in_cell grid c pt ->
  (forall idx, corner c idx -> m <= acell C (idx ++ suf) <= M) ->
  value_linear mode grid comps C pt suf v -> m <= v <= M.
Proof. exact (linear_between_corners mode grid comps C c m M pt suf v). Qed.
Print Assumptions C67_between_corners.
Theorem C67_modulus_of_continuity mode grid comps (C : arr R) c f eps pt suf v :
  valid_grid grid -> coefs_ok 1 grid comps C -> inb comps suf = true -> in_cell grid c pt ->
  (forall idx, corner c idx -> acell C (idx ++ suf) = f (node_at grid idx)) ->
  (forall q, in_cell grid c q -> Rabs (f q - f pt) <= eps) ->
  value_linear mode grid comps C pt suf v -> Rabs (v - f pt) <= eps.
Proof. exact (linear_modulus mode grid comps C c f eps pt suf v). Qed.
Print Assumptions C67_modulus_of_continuity.
Theorem C67_second_order mode grid comps (C : arr R) c Ms f pt suf v :
  valid_grid grid -> coefs_ok 1 grid comps C -> inb comps suf = true -> in_cell grid c pt ->
  (forall idx, inb (map gsize grid) idx = true -> acell C (idx ++ suf) = f (node_at grid idx)) ->
  along_axes curvature_within grid Ms f ->
  value_linear mode grid comps C pt suf v -> Rabs (v - f pt) <= linear_error grid c Ms.
Proof. exact (linear_second_order mode grid comps C c Ms f pt suf v). Qed.
Print Assumptions C67_second_order.
Theorem C67_bound_attained mode grid comps (C : arr R) c Ms suf v :
  valid_grid grid -> coefs_ok 1 grid comps C -> inb comps suf = true -> in_cell grid c (midpoint grid c) ->
  length Ms = length grid -> List.Forall (fun M => 0 <= M) Ms ->
  (forall idx, inb (map gsize grid) idx = true -> acell C (idx ++ suf) = parabola Ms (node_at grid idx)) ->
  value_linear mode grid comps C (midpoint grid c) suf v ->
  along_axes curvature_within grid Ms (parabola Ms) /\ v - parabola Ms (midpoint grid c) = linear_error grid c Ms.
Proof. exact (linear_attained mode grid comps C c Ms suf v). Qed.
Print Assumptions C67_bound_attained.
Example C67_case : exists v, in_cell exg [1; 1]%Z [3 / 4; 2] /\
  value_linear None exg [] (ex_sample (parabola [2; 6])) [3 / 4; 2] [] v /\
  v - parabola [2; 6] [3 / 4; 2] = linear_error exg [1; 1]%Z [2; 6] /\ linear_error exg [1; 1]%Z [2; 6] = 49 / 16.
Proof. exact ex_C67. Qed.

(** C68 *)
Theorem C68_cubic_stable mode mode' grid comps (V V' : arr R) C C' eps pt suf v v' :
  valid_grid grid -> all_uniform grid -> supported_dim grid -> values_ok grid comps V -> values_ok grid comps V' ->
  inb comps suf = true -> in_domain grid pt ->
  (forall idx, inb (map gsize grid) idx = true -> Rabs (acell V (idx ++ suf) - acell V' (idx ++ suf)) <= eps) ->
  filter_cubic grid V None = Ok (VArr C, None) -> filter_cubic grid V' None = Ok (VArr C', None) ->
  value_cubic mode grid comps C pt suf v -> value_cubic mode' grid comps C' pt suf v' ->
  Rabs (v - v') <= (5 / 2) ^ length grid * eps.
Proof. exact (cubic_stable mode mode' grid comps V V' C C' eps pt suf v v'). Qed.
Print Assumptions C68_cubic_stable.
Example C68_case : exists C C' v v', values_ok exu [2]%Z exW' /\
  (forall idx, inb (map gsize exu) idx = true -> Rabs (acell exW (idx ++ [1%Z]) - acell exW' (idx ++ [1%Z])) <= 1 / 10) /\
  filter_cubic exu exW None = Ok (VArr C, None) /\ filter_cubic exu exW' None = Ok (VArr C', None) /\
  value_cubic None exu [2]%Z C [1 / 3; 1 / 7] [1%Z] v /\ value_cubic (Some XConstant) exu [2]%Z C' [1 / 3; 1 / 7] [1%Z] v' /\
  Rabs (v - v') <= 5 / 8.
Proof. exact ex_C68. Qed.

(** C69 *)
Theorem C69_cubic_second_order mode grid comps (V C : arr R) Ms f pt suf v :
  valid_grid grid -> all_uniform grid -> supported_dim grid -> values_ok grid comps V ->
  inb comps suf = true -> in_domain grid pt ->
  (forall idx, inb (map gsize grid) idx = true -> acell V (idx ++ suf) = f (node_at grid idx)) ->
  along_axes curvature_within grid Ms f ->
  filter_cubic grid V None = Ok (VArr C, None) -> value_cubic mode grid comps C pt suf v ->
  Rabs (v - f pt) <= cubic_error (1 / 2) 2 grid Ms.
Proof. exact (cubic_second_order mode grid comps V C Ms f pt suf v). Qed.
Print Assumptions C69_cubic_second_order.
Theorem C69_cubic_fourth_order mode grid comps (V C : arr R) Ms f pt suf v :
  valid_grid grid -> all_uniform grid -> supported_dim grid -> values_ok grid comps V ->
  inb comps suf = true -> in_domain grid pt ->
  (forall idx, inb (map gsize grid) idx = true -> acell V (idx ++ suf) = f (node_at grid idx)) ->
  along_axes fourth_within grid Ms f ->
  filter_cubic grid V None = Ok (VArr C, None) -> value_cubic mode grid comps C pt suf v ->
  Rabs (v - f pt) <= cubic_error (7 / 64) 4 grid Ms.
Proof. exact (cubic_fourth_order mode grid comps V C Ms f pt suf v). Qed.
Print Assumptions C69_cubic_fourth_order.
Theorem C69_derivative mode a b n (V C : arr R) M f l t v :
  let g := Unif a b n in
  valid_dim g -> ashape V = [n] -> (forall i, (0 <= i < n)%Z -> acell V [i] = f (gnode g i)) -> in_dim g t ->
  filter_cubic [g] V None = Ok (VArr C, None) ->
  value_at 3 (Some [[1%Z]]) mode [g] [] C [t] [0%Z] v ->
  derivable_pt_lim f t l ->
  (curvature_within g M f -> Rabs (v - l) <= 4 * M * step g) /\
  (fourth_within g M f -> Rabs (v - l) <= 7 / 8 * M * step g ^ 3).
Proof. exact (cubic_derivative_order mode a b n V C M f l t v). Qed.
Print Assumptions C69_derivative.
Theorem C69_fourth_order_without_ends_refuted : exists a b n (V C : arr R) (f f1 f2 f3 f4 : R -> R) t v,
  let g := Unif a b n in
  valid_dim g /\ values_ok [g] [] V /\
  (forall x, derivable_pt_lim f x (f1 x) /\ derivable_pt_lim f1 x (f2 x) /\ derivable_pt_lim f2 x (f3 x) /\ derivable_pt_lim f3 x (f4 x) /\ f4 x = 0) /\
  (forall i, (0 <= i < n)%Z -> acell V [i] = f (gnode g i)) /\ in_dim g t /\
  filter_cubic [g] V None = Ok (VArr C, None) /\ value_cubic None [g] [] C [t] [] v /\ v - f t = 1 / 4.
Proof. exact fourth_order_needs_ends. Qed.
Print Assumptions C69_fourth_order_without_ends_refuted.
Example C69_case : along_axes fourth_within [Unif 0 1 5] [24] ex_quartic /\
  along_axes curvature_within exu [2; 6] (parabola [2; 6]) /\
  cubic_error (7 / 64) 4 [Unif 0 1 5] [24] = 21 / 2048 /\ cubic_error (1 / 2) 2 exu [2; 6] = 43 / 12.
Proof. exact ex_C69. Qed.

(** C70 *)
Theorem C70_least_curvature mode a b n (V C : arr R) F F1 F2 G G1 G2 :
  let g := Unif a b n in
  valid_dim g -> ashape V = [n] -> filter_cubic [g] V None = Ok (VArr C, None) ->
  (forall t, a <= t <= b -> value_cubic mode [g] [] C [t] [] (F t)) ->
  twice_differentiable a b F F1 F2 -> twice_differentiable a b G G1 G2 ->
  (forall i, (0 <= i < n)%Z -> G (gnode g i) = acell V [i]) ->
  RInt (fun t => G2 t * G2 t) a b = RInt (fun t => F2 t * F2 t) a b + RInt (fun t => (G2 t - F2 t) * (G2 t - F2 t)) a b /\
  RInt (fun t => F2 t * F2 t) a b <= RInt (fun t => G2 t * G2 t) a b /\
  (RInt (fun t => F2 t * F2 t) a b = RInt (fun t => G2 t * G2 t) a b -> forall t, a <= t <= b -> G t = F t).
Proof. exact (least_curvature mode a b n V C F F1 F2 G G1 G2). Qed.
Print Assumptions C70_least_curvature.
Example C70_case : exists C F F1 F2, filter_cubic [exl] exY None = Ok (VArr C, None) /\
  (forall t, 0 <= t <= 3 -> value_cubic None [exl] [] C [t] [] (F t)) /\
  twice_differentiable 0 3 F F1 F2 /\ twice_differentiable 0 3 (fun t => t ^ 2) (fun t => 2 * t) (fun _ => 2) /\
  (forall i, (0 <= i < 4)%Z -> (gnode exl i) ^ 2 = acell exY [i]) /\
  RInt (fun t => F2 t * F2 t) 0 3 < RInt (fun t => 2 * 2) 0 3.
Proof. exact ex_C70. Qed.
