(** Properties of cartesian products, grids and nodes: C34-C36. *)
From Coq Require Import ZArith List Reals QArith.
From Verif Require Import Base ArrayModel SplineModel PrefilterModel Spec CartesianModel SpecCartesian CartesianProps CartesianR CartesianCases.
Import ListNotations.
Open Scope Z_scope.

(** C34 *)
Theorem C34_cartesian_enumerates {T} {NT : Num T} (nodes : list (list T)) ord :
  nodes <> [] -> Forall (fun x => x <> []) nodes ->
  exists out, cartesian nodes ord = Ok out /\ ashape out = [zprod (map zlen nodes); zlen nodes] /\
    rows_of out = enumeration ord nodes.
Proof. exact (cartesian_enumerates (n_ofZ 0) nodes ord). Qed.
Print Assumptions C34_cartesian_enumerates.
(** With an empty axis the product is empty but the call raises. *)
Theorem C34_empty_axis_raises {T} {NT : Num T} (nodes : list (list T)) ord :
  In [] nodes -> cartesian nodes ord = Err ZeroDivErr.
Proof. exact (cartesian_empty_axis nodes ord). Qed.
Print Assumptions C34_empty_axis_raises.
(** [mlinspace] enumerates the product of evenly spaced axes, for any numbers of points. *)
Theorem C34_mlinspace (dims : list (R * R * Z)) ord : dims <> [] -> Forall (fun t => 2 <= snd t) dims ->
  exists out, mlinspace (map (fun t => fst (fst t)) dims) (map (fun t => snd (fst t)) dims) (map snd dims) ord = Ok out /\
    ashape out = [zprod (map snd dims); zlen dims] /\
    rows_of out = enumeration ord (map (fun t => axis (Unif (fst (fst t)) (snd (fst t)) (snd t))) dims).
Proof. exact (mlinspace_enumerates dims ord). Qed.
Print Assumptions C34_mlinspace.
Example C34_computed :
  (match cartesian [[1; 2]; [3; 4; 5]]%Q OrderC with Ok a => rows_of a | _ => [] end
     = [[1; 3]; [1; 4]; [1; 5]; [2; 3]; [2; 4]; [2; 5]]%Q) /\
  (match cartesian [[1; 2]; [3; 4; 5]]%Q OrderF with Ok a => rows_of a | _ => [] end
     = [[1; 3]; [2; 3]; [1; 4]; [2; 4]; [1; 5]; [2; 5]]%Q).
Proof. vm_compute. auto. Qed.

(** C35 *)
Theorem C35_nodes_enumerates grid : grid <> [] -> valid_grid grid -> all_uniform grid ->
  exists P, nodes grid = Ok P /\ ashape P = [zprod (map gsize grid); zlen grid] /\ rows_of P = product (map axis grid).
Proof. exact (nodes_enumerates grid). Qed.
Print Assumptions C35_nodes_enumerates.
Theorem C35_tabulate_then_linear f grid mode : grid <> [] -> valid_grid grid -> all_uniform grid ->
  exists P V, nodes grid = Ok P /\ ashape P = [zprod (map gsize grid); zlen grid] /\ tabulate f grid = Ok V /\
  forall r, 0 <= r < zprod (map gsize grid) ->
    value_linear mode grid [] V (row_of (zlen grid) P r) [] (f (row_of (zlen grid) P r)).
Proof. exact (nodes_then_linear f grid mode). Qed.
Print Assumptions C35_tabulate_then_linear.
Theorem C35_tabulate_then_cubic f grid mode : valid_grid grid -> all_uniform grid -> supported_dim grid ->
  exists P V C, nodes grid = Ok P /\ ashape P = [zprod (map gsize grid); zlen grid] /\ tabulate f grid = Ok V /\
  filter_cubic grid V None = Ok (VArr C, None) /\
  forall r, 0 <= r < zprod (map gsize grid) ->
    value_cubic mode grid [] C (row_of (zlen grid) P r) [] (f (row_of (zlen grid) P r)).
Proof. exact (nodes_then_cubic f grid mode). Qed.
Print Assumptions C35_tabulate_then_cubic.
Example C35_case : exug <> [] /\ valid_grid exug /\ all_uniform exug /\ supported_dim exug /\ zprod (map gsize exug) = 12.
Proof. exact ex_C35. Qed.
Example C35_computed :
  (match nodes [Unif 0 1 2; Unif 0 4 3]%Q with Ok a => rows_of a | _ => [] end
     = [[0; 0]; [0; 2]; [0; 4]; [1; 0]; [1; 2]; [1; 4]]%Q).
Proof. vm_compute. auto. Qed.

(** C36 *)
Theorem C36_ucgrid (args : list (gspec R)) :
  (Forall spec_tuple_ok args -> ucgrid args = Ok args) /\ (~ Forall spec_tuple_ok args -> ucgrid args = Err AssertErr).
Proof. exact (ucgrid_accepts args). Qed.
Print Assumptions C36_ucgrid.
Theorem C36_cgrid (args : list (gspec R)) :
  (Forall spec_ok args -> cgrid args = Ok args) /\ (~ Forall spec_ok args -> exists e, cgrid args = Err e).
Proof. exact (cgrid_accepts args). Qed.
Print Assumptions C36_cgrid.
(** What UCGrid accepts is a grid for every theorem about uniform grids, and [nodes] enumerates it. *)
Theorem C36_ucgrid_nodes_partial (args : list (gspec R)) : args <> [] -> ucgrid args = Ok args ->
  exists grid P, map spec_dim args = map Some grid /\ valid_grid grid /\ all_uniform grid /\
    nodes grid = Ok P /\ rows_of P = product (map axis grid).
Proof. exact (ucgrid_nodes args). Qed.
Print Assumptions C36_ucgrid_nodes_partial.
Example C36_case : ucgrid [STuple 0 1 5; STuple (-1) 2 3]%R = Ok [STuple 0 1 5; STuple (-1) 2 3]%R.
Proof. exact ex_C36. Qed.
(** What [nodes] does with an array dimension: its first three entries are read as (a, b, n), the third
    cut to an integer; an array of two is an error. *)
Theorem C36_nodes_of_arrays (grid grid' : list (gdim R)) :
  (Forall2 read_as_triple grid grid' -> nodes grid = nodes grid') /\ (Exists too_short grid -> nodes grid = Err IndexErr).
Proof. exact (conj (nodes_as_triples grid grid') (nodes_short grid)). Qed.
Print Assumptions C36_nodes_of_arrays.
Example C36_arrays_case : Forall2 read_as_triple [Nonunif [-1; 1; 5/2; 9]; Unif 0 1 3; Nonunif [0; 1; -5/2]]%R [Unif (-1) 1 2; Unif 0 1 3; Unif 0 1 (-2)]%R /\
  Exists too_short [Unif 0 1 3; Nonunif [0; 1]]%R.
Proof. exact ex_triples. Qed.
(** Missing from the partial: CGrid.  It accepts arrays that are not increasing, and [nodes] of a
    valid grid with an array dimension returns other points or raises. *)
Theorem C36_cgrid_valid_refuted :
  exists args grid, cgrid args = Ok args /\ map (@spec_dim R) args = map Some grid /\ ~ valid_grid grid.
Proof. exact cgrid_unsorted. Qed.
Print Assumptions C36_cgrid_valid_refuted.
Theorem C36_cgrid_nodes_refuted :
  (exists args grid, cgrid args = Ok args /\ map (@spec_dim R) args = map Some grid /\ valid_grid grid /\
     exists P, nodes grid = Ok P /\ rows_of P <> product (map axis grid)) /\
  (exists args grid, cgrid args = Ok args /\ map (@spec_dim R) args = map Some grid /\ valid_grid grid /\ nodes grid = Err IndexErr).
Proof. exact nodes_array_wrong. Qed.
Print Assumptions C36_cgrid_nodes_refuted.
