(** Properties C13-C18, C20 of the prefilter (filter_cubic, prefilter) and of the cubic
    interpolant it produces. *)
From Coq Require Import ZArith List Bool Reals QArith Lia Lra PrimFloat.
From Verif Require Import Base BaseFacts SplineModel PrefilterModel Spec EvalRProps ExampleData PrefilterProps PrefilterCases.
Import ListNotations.
Open Scope Z_scope.

(** C13 *)
Theorem C13_cubic_interpolates mode grid comps (V : arr R) idx suf :
  valid_grid grid -> all_uniform grid -> supported_dim grid -> values_ok grid comps V ->
  inb (map gsize grid) idx = true -> inb comps suf = true ->
  exists C, filter_cubic grid V None = Ok (VArr C, None) /\
    value_cubic mode grid comps C (node_at grid idx) suf (acell V (idx ++ suf)).
Proof. exact (filter_interpolates mode grid comps V idx suf). Qed.
Print Assumptions C13_cubic_interpolates.
Theorem C13_prefilter_interpolates k xm grid comps (V : arr R) idx suf :
  k = 1 \/ k = 3 /\ all_uniform grid /\ supported_dim grid -> valid_grid grid -> values_ok grid comps V ->
  inb (map gsize grid) idx = true -> inb comps suf = true ->
  exists C, prefilter grid V None k = Ok (VArr C, None) /\
    value_at k None xm grid comps C (node_at grid idx) suf (acell V (idx ++ suf)).
Proof. exact (prefilter_interpolates k xm grid comps V idx suf). Qed.
Print Assumptions C13_prefilter_interpolates.
Example C13_case : exists C, filter_cubic exu exW None = Ok (VArr C, None) /\
  value_cubic None exu [2] C (node_at exu [2; 1]) [1] 114%R.
Proof. exact ex_C13. Qed.
Example C13_computed :
  match filter_cubic qu qVu None with
  | Ok (VArr C, None) => qcells (eval_cubic qu C (P2 qnodes) None None) [[0; 1]; [1; 0]]
  | _ => None
  end = Some [114; 21]%Q.
Proof. vm_compute. reflexivity. Qed.

(** C14: the coefficients are the only ones satisfying the interpolation equations and the
    end conditions; in terms of the equations, then in terms of the function obtained by
    evaluating with them. *)
Theorem C14_equations_unique a b n (V : arr R) :
  valid_dim (Unif a b n) -> ashape V = [n] ->
  exists C, filter_cubic [Unif a b n] V None = Ok (VArr C, None) /\ ashape C = [n + 2] /\
    forall c : Z -> R,
      natural_coefs n (fun i => acell V [i]) c <->
      (forall i, 0 <= i < n + 2 -> c i = acell C [i]).
Proof. exact (filter_1d_unique a b n V). Qed.
Print Assumptions C14_equations_unique.
Theorem C14_natural_spline_unique mode a b n (V C c : arr R) F :
  valid_dim (Unif a b n) -> ashape V = [n] -> ashape c = [n + 2] ->
  filter_cubic [Unif a b n] V None = Ok (VArr C, None) ->
  (forall t, (a <= t <= b)%R -> value_cubic mode [Unif a b n] [] c [t] [] (F t)) ->
  ((forall i, 0 <= i < n -> F (gnode (Unif a b n) i) = acell V [i]) /\
   (exists F1 F2, twice_differentiable a b F F1 F2 /\ F2 a = 0%R /\ F2 b = 0%R))
  <-> aeq c C.
Proof. exact (natural_spline_unique mode a b n V C c F). Qed.
Print Assumptions C14_natural_spline_unique.
Example C14_case : exists C F, valid_dim exl /\ filter_cubic [exl] exY None = Ok (VArr C, None) /\
  ashape C = [6] /\ (forall t, (0 <= t <= 3)%R -> value_cubic None [exl] [] C [t] [] (F t)) /\ F 2%R = 4%R.
Proof. exact ex_C14. Qed.

(** C15 *)
Theorem C15_filter_total grid comps (V : arr R) :
  valid_grid grid -> all_uniform grid -> supported_dim grid -> values_ok grid comps V ->
  (exists C, filter_cubic grid V None = Ok (VArr C, None) /\ ashape C = map (fun n => n + 2) (map gsize grid) ++ comps) /\
  (forall C0, ashape C0 = map (fun n => n + 2) (map gsize grid) ++ comps ->
     exists C, filter_cubic grid V (Some C0) = Ok (VNone, Some C) /\ ashape C = ashape C0).
Proof. exact (filter_total grid comps V). Qed.
Print Assumptions C15_filter_total.
Example C15_case : valid_grid exu /\ all_uniform exu /\ supported_dim exu /\ values_ok exu [2] exW.
Proof. exact ex_filter_hyps. Qed.

(** C16: over any number type, floats included. *)
Theorem C16_inplace_equals_allocating {T} {NT : Num T} grid (D C0 : arr T) C :
  grid <> [] -> Forall (fun m => 1 <= m) (firstn (length grid) (ashape D)) ->
  ashape C0 = coef_shape (length grid) (ashape D) ->
  filter_cubic grid D None = Ok (VArr C, None) ->
  exists C', filter_cubic grid D (Some C0) = Ok (VNone, Some C') /\ aeq C C'.
Proof. exact (inplace_content grid D C0 C). Qed.
Print Assumptions C16_inplace_equals_allocating.
Theorem C16_content_irrelevant {T} {NT : Num T} grid (D C0 C1 : arr T) :
  grid <> [] -> Forall (fun m => 1 <= m) (firstn (length grid) (ashape D)) ->
  (length grid <= length (ashape D) <= length grid + 1)%nat ->
  ashape C0 = coef_shape (length grid) (ashape D) -> ashape C1 = ashape C0 ->
  match filter_cubic grid D (Some C0), filter_cubic grid D (Some C1) with
  | Ok (r, Some C'), Ok (r', Some C'') => r = VNone /\ r' = VNone /\ ashape C' = ashape C0 /\ aeq C' C''
  | Err e, Err e' => e = e'
  | _, _ => False
  end.
Proof. exact (inplace_outcome grid D C0 C1). Qed.
Print Assumptions C16_content_irrelevant.
Example C16_case :
  match filter_cubic fgu fV None, filter_cubic fgu fV (Some (mkArr [5; 4] (fun _ => 77%float))) with
  | Ok (VArr C, None), Ok (VNone, Some C') =>
      forallb (fun i => PrimFloat.eqb (acell C i) (acell C' i)) (PrefilterGeneric.all_idx [5; 4])
  | _, _ => false
  end = true.
Proof. vm_compute. reflexivity. Qed.

(** C17 *)
Theorem C17_bounds_irrelevant grid grid' comps (V : arr R) C C' :
  valid_grid grid -> all_uniform grid -> valid_grid grid' -> all_uniform grid' -> supported_dim grid ->
  map gsize grid = map gsize grid' -> values_ok grid comps V ->
  filter_cubic grid V None = Ok (VArr C, None) -> filter_cubic grid' V None = Ok (VArr C', None) -> aeq C C'.
Proof. exact (filter_bounds_irrelevant grid grid' comps V C C'). Qed.
Print Assumptions C17_bounds_irrelevant.
Theorem C17_linear_in_values grid comps (V V' : arr R) s t C C' C2 :
  valid_grid grid -> all_uniform grid -> supported_dim grid ->
  values_ok grid comps V -> values_ok grid comps V' ->
  filter_cubic grid V None = Ok (VArr C, None) -> filter_cubic grid V' None = Ok (VArr C', None) ->
  filter_cubic grid (alin s V t V') None = Ok (VArr C2, None) -> aeq C2 (alin s C t C').
Proof. exact (filter_linear grid comps V V' s t C C' C2). Qed.
Print Assumptions C17_linear_in_values.
Theorem C17_legacy_filter_data_same grid (V : arr R) dinvs C :
  valid_grid grid -> all_uniform grid -> supported_dim grid -> values_ok grid [] V ->
  length dinvs = length grid -> Forall (fun x => x <> 0%R) dinvs ->
  filter_cubic grid V None = Ok (VArr C, None) ->
  exists C', filter_data dinvs V = Ok (Some C') /\ aeq C C'.
Proof. exact (legacy_same grid V dinvs C). Qed.
Print Assumptions C17_legacy_filter_data_same.
Example C17_case : valid_grid exu /\ valid_grid exu' /\ map gsize exu = map gsize exu' /\ exu <> exu' /\ values_ok exu [2] exW.
Proof. exact ex_C17. Qed.
Example C17_computed :
  match filter_cubic qu qCu None, filter_cubic qu' qCu None, filter_data [5; 7]%Q qCu with
  | Ok (VArr C, None), Ok (VArr C', None), Ok (Some C'') =>
      forallb (fun i => Qeq_bool (acell C i) (acell C' i) && Qeq_bool (acell C i) (acell C'' i))
        (PrefilterGeneric.all_idx [5; 6])
  | _, _, _ => false
  end = true.
Proof. vm_compute. reflexivity. Qed.

(** C18 *)
Theorem C18_cubic_reproduces_multi_affine mode grid comps (V : arr R) f pt suf :
  valid_grid grid -> all_uniform grid -> supported_dim grid -> values_ok grid comps V ->
  inb comps suf = true -> multi_affine (length grid) f ->
  (forall idx, inb (map gsize grid) idx = true -> acell V (idx ++ suf) = f (node_at grid idx)) ->
  length pt = length grid -> (default_mode mode = XLinear \/ in_domain grid pt) ->
  exists C, filter_cubic grid V None = Ok (VArr C, None) /\ value_cubic mode grid comps C pt suf (f pt).
Proof. exact (filter_affine mode grid comps V f pt suf). Qed.
Print Assumptions C18_cubic_reproduces_multi_affine.
Example C18_case : multi_affine 2 ex_bilinear2 /\
  exists C, filter_cubic exu (ex_sample2 ex_bilinear2) None = Ok (VArr C, None) /\
    value_cubic None exu [] C [7; -3]%R [] (ex_bilinear2 [7; -3]%R).
Proof. exact ex_C18. Qed.

(** C20: along every coordinate, in any dimension; the second derivative vanishes at the ends
    for filtered coefficients in dimension one. *)
Theorem C20_twice_differentiable mode g1 a b n g2 comps (C : arr R) p1 p2 suf F :
  let grid := g1 ++ Unif a b n :: g2 in
  valid_grid grid -> all_uniform grid -> coefs_ok 3 grid comps C -> inb comps suf = true ->
  in_domain g1 p1 -> in_domain g2 p2 ->
  (forall t, (a <= t <= b)%R -> value_cubic mode grid comps C (p1 ++ t :: p2) suf (F t)) ->
  exists F1 F2, twice_differentiable a b F F1 F2.
Proof. exact (cubic_C2 mode g1 a b n g2 comps C p1 p2 suf F). Qed.
Print Assumptions C20_twice_differentiable.
Theorem C20_natural_ends mode a b n (V C : arr R) F :
  valid_dim (Unif a b n) -> ashape V = [n] ->
  filter_cubic [Unif a b n] V None = Ok (VArr C, None) ->
  (forall t, (a <= t <= b)%R -> value_cubic mode [Unif a b n] [] C [t] [] (F t)) ->
  exists F1 F2, twice_differentiable a b F F1 F2 /\ F2 a = 0%R /\ F2 b = 0%R.
Proof. exact (filtered_C2_natural mode a b n V C F). Qed.
Print Assumptions C20_natural_ends.
Example C20_case : exists F,
  forall t, (-1 <= t <= 1)%R -> value_cubic None exu [] exK ([1 / 3] ++ t :: [])%R [] (F t).
Proof. exact ex_C20. Qed.
