# Formal model of EconForge/interpolation.py in Rocq

The Python source in /repo is read as text. Nothing is built or run. The model is
written by hand, function by function, in `rocq/theories`; each definition cites the file
and the lines it models. For the files where a slip of the hand is most likely (9000 lines
of unrolled code, a code generator, the in-place filter) the text itself is embedded in a
Coq file, read by a parser and run by an interpreter, both written in Coq, and proved to
compute what the model says.

## 1. How the code is modelled

### 1.1 The hand-written model (`*Model.v`)

* **Arithmetic.** Every numeric definition is written once over a class `Num T` (add, sub,
  mul, div, comparisons, int->float, `int(floor(x))`, `int(x // y)`, `isfinite`). There are
  three instances: the reals `R` (numeric theorems), the rationals `Q` (computable
  examples), and `PrimFloat` (IEEE double; computable examples).
  Theorems about data flow (memory safety, vectorised = row-wise, in place = allocating,
  vector-valued = component-wise, history independence, text = model) are proved for *every*
  `Num T`, so they hold of IEEE doubles as they are. Theorems about numbers are proved over
  `R`, i.e. they ignore rounding.
* **Errors.** Functions return `res A := Ok a | Err e`. Division by zero is an error (the
  code is compiled by numba with its default error model, which raises
  `ZeroDivisionError`), indexing out of an array is an error (`IndexErr`; the code itself
  would silently read other memory), code that numba refuses to compile is an error
  (`TypeErr`/`NameErr`).
* **Arrays.** `arr T` = shape (list of Z) + cell function (list of Z -> T); reads and writes
  check bounds. Strides, dtype and memory layout are not modelled. Negative indices are
  an error in compiled code (stricter than numpy's wraparound) and count from the end where
  plain Python runs (`pyget`).
* **Integers** are `Z` (numba's int64 wraparound is not modelled).
* **Grids.** A dimension is `Unif a b n` (the tuple `(a,b,n)`) or `Nonunif xs` (an array).
* **Generated code.** `SplineModel.eval_spline` and `InterpModel` give the meaning of the
  code generated by `splines/codegen.py` and `multilinear/fungen.py` for arbitrary dimension
  d (loops unrolled by the templates become recursions over the list of dimensions).
* **Objects** (`CubicSpline`, `LinearSpline`, `SmolyakInterp`, `CompletePolynomial`) are records
  of their attributes and operations on them; a history is a list of operations. Arrays the
  caller keeps a reference to are modelled with an explicit memory in `ObjectModel.v`.
* **numpy/scipy** functions used: `searchsorted` (left), `linspace`, `cumprod`, `zeros`,
  `reshape`, `isfinite`, `column_stack`, `cos`, `argsort` -- each given a direct model.
  `linalg.lstsq`, `linalg.solve`, `scipy.linalg.lu` enter through their contract only (a
  solution of the (normal) equations, a factorisation), stated as hypotheses of the theorems.

| Model file | Source |
|---|---|
| `SplineModel` | splines/codegen.py (meaning of the generated code), splines/eval_splines.py, option_types.py |
| `PrefilterModel` | splines/prefilter_cubic.py, splines/filter_cubic.py (solver, passes) |
| `ObjectModel` | splines/splines.py, splines/multilinear.py, rest of filter_cubic.py, eval_cubic.py, multilinear_numba.py |
| `GradModel`, `NumbaModel` | splines/eval_cubic_numba.py, splines/eval_cubic.py |
| `BasisModel`, `HermiteModel` | splines/basis_splines.py, splines/hermite.py |
| `InterpModel` | multilinear/fungen.py, multilinear/mlinterp.py |
| `CompleteModel` | complete_poly.py |
| `CartesianModel`, `ArrayModel` | cartesian.py, splines/__init__.py, numpy's `reshape` |
| `SmolyakModel` | smolyak/util.py, grid.py, interp.py |
| `GenModel`, `GenCall` | splines/codegen.py (the programs it writes, as syntax trees), eval_splines.py (the names they see) |
| `TempitaModel` | tempita/__init__.py (reading a template) |

`Spec*.v` hold the specification vocabulary of the theorems (B-splines, natural splines,
multi-affine functions, monomials, Chebyshev polynomials, closest point, ...), written without
using the model's helpers. `Props*.v` hold the theorems and the examples showing that their
hypotheses are met. All other files are proofs.

### 1.2 Texts (`Src*.v`, `PySyntax.v`, `PySem.v`, `NpSem.v`, `MlSem.v`, `ObSem.v`)

`Src*.v` hold source files byte for byte (`tools/gensrc.py --check` compares them with /repo).
`PySyntax.v` is a lexer (indentation, brackets, strings, f-strings kept as texts, UTF-8 names,
CRLF) and a recursive-descent parser for the subset of Python these files use; a file that
is not read to its end is an error. `PySem.v` is an interpreter over `Num T`: values (ints,
floats, booleans, None, strings, tuples, functions, arrays at heap locations seen through
views), arithmetic, subscripts and slices `:`/`...`, calls with keywords and defaults, `for`,
`while`, `if`, `try`, nested functions, `@overload`. What it leaves out or decides:

* `@overload(f)` is run at the call, on values, where numba runs it on types; then the function
  it returns is called. Other decorators are ignored.
* Top-level statements that are not definitions or assignments of constants are skipped.
* A list display is a tuple (no list is mutated in these files); slices with bounds,
  classes, generators, closures over local variables are outside of the subset.
* `x ** k` with a literal k is a product, `-c` of a literal is folded, as the compiler does.
* Recursion depth and `while` iterations are bounded by a fuel argument; theorems give a
  fuel that is enough (or hold for every fuel where the result is `Ok`).
* Anything outside of the subset is `Err TypeErr`, so a theorem that concludes `Ok` is not
  about such code.

Embedded: eval_cubic_numba.py (C57-C59), basis_splines.py (C61), hermite.py (C62),
prefilter_cubic.py (C63), codegen.py (C64), complete_poly.py (C66; its class is not interpreted), filter_cubic.py (C71; its
`filter_coeffs` and `filter_mcoeffs` use array arithmetic outside of the subset and are only in the
hand-written model, `ObjectModel.v`).

`NpSem.v` is a second interpreter, for the Smolyak modules (C83): lists, dicts, comprehensions, generators,
classes, broadcasting, fancy subscripts and the numpy functions these files call. Its simplifications:
lists, arrays and objects are values (no two names share one), a generator or a range is the list of what it
produces, a method called inside of an expression does not change its object, the three modules share one
namespace (grid.py imports the names of util.py, interp.py those of grid.py), the cells of an array are exact
reals. numpy's pi and cos, scipy's lu(B, permute_l=True) and numpy's linalg.solve are parameters. The
`__repr__` of the grid and `plot_grid` are parsed and not run.

`MlSem.v` is a third one, for multilinear/fungen.py and mlinterp.py (C84). Stage 1 runs the body of an
`@overload` on the types of the arguments: lists, strings, f-strings, `format`, `itertools.product`, closures,
`isinstance` on numba types; `eval(compile(ast.parse(s)..))` parses the string with the parser of
`PySyntax.v`. Stage 2 runs the function so obtained on values and resolves further overloads by the types of
the values. Simplifications: the two modules share one namespace; the types are int, float, array of floats
with its number of dimensions, tuple; numba's coercions between ints and floats are those of the operations
used; an integer is unbounded; `searchsorted` is the number of nodes below; arrays are values (the code writes
only to arrays it has just allocated).

`ObSem.v` is a fourth one, for the classes of splines.py and multilinear.py and the undecorated functions of
filter_cubic.py and eval_cubic.py (C85). It has a heap of arrays, the attributes of one object, and values that
refer to an array through the reshapes taken of it. Functions with a decorator are compiled ones and are
operations given by `SpecObText.v` (`np_ops`) from the hand-written model, as are numpy's. Simplifications:
`a[..., i]` is a copy; `reshape` of an array that is not C-contiguous float64, and `numpy.ascontiguousarray` of it,
copy, and otherwise do not; `numpy.array(a)` copies; the points are not on the heap (the code does not write
to them); the property `grid` is run for the cubic classes (C86), not for the linear ones (C56); the functions of
eval_cubic.py for compatibility (C55) are parsed and not run here; arguments of different lengths are not covered; an error is known to occur, which one is not compared.

### 1.3 The code generator

`StrSem.v` interprets the Python subset of the generators (strings, `format`, f-strings,
lists, sets, tempita templates) and `TempitaModel.v` models the template reader. Running the
text of codegen.py this way gives a text, which `PySyntax` parses. `GenModel.gen_program` is the
syntax tree of that program for any number of dimensions and all options. C64 proves that
`gen_program` refines the model `eval_spline` for all options and all d. That the text of
codegen.py expands to `gen_program` is checked by computation for d <= 4 (`GenText.v`, tests over all
options, four of them also by the kernel) - this step is bounded, and `C64_written_text_is_model`
says so by its hypothesis `agrees ... = true`. `allocate_output` (an overload that chooses among
lambdas) is modelled in `GenCall.v` by hand, as one step.

## 2. Properties: what is modelled and how it is proved

| Id | Model | Proof |
|----|-------|-------|
| C01 | `eval_spline` (both templates), k=1 | per-dimension lemma "at node i the two weights select cell i", lifted over the list of dimensions by induction |
| C02 | same | per-dimension lemma: weights sum to 1 and reproduce x; induction on d over a multi-affine predicate |
| C03 | same | weights nonnegative and sum to 1 in the domain; convexity induction |
| C04 | same, any `Num` | clamp keeps `0<=i<=n-2` for any result of `int(floor .)`; no arithmetic fact used |
| C05 | both templates, any `Num` | loop invariant over rows |
| C06 | both templates, any `Num` | every cell of `out` is written; final state independent of the initial one; one-point vector form refuted |
| C07 | both templates, any `Num` | same index arithmetic with a trailing index |
| C08 | both templates | projection lemma per dimension |
| C09 | both templates | case analysis of the early exits |
| C10 | blending formulas outside `[0,1]` | algebra per dimension, lifted by `trex` |
| C11 | `trex` | induction |
| C12 | evaluation map | 1-d weights written as continuous piecewise-polynomial functions; finite sums of products; Coquelicot `continuous` |
| C13 | `prefilter_cubic.py` solver and d-dimensional loops, then `eval_spline` k=3 | correctness of the elimination by induction on rows; tensor argument over dimensions |
| C14 | 1-d solver | elimination is an equivalence of linear systems: existence and uniqueness |
| C15 | solver with checked division | pivots bounded away from 0 by invariant |
| C16 | in-place loops with explicit memory | final state computed by loop invariants |
| C17 | both solvers | closed description of coefficients by C14 + uniqueness |
| C18 | prefilter + eval | coefficients of affine data are affine; uniqueness |
| C19 | `diff` with blending l=1 | Coquelicot derivative per piece, gluing at cell borders, lifted to d |
| C20 | 1-d cubic | second derivative is piecewise affine with continuous pieces |
| C21 | k=1, l=1, non-uniform | derivative of affine piece |
| C22 | k=1, l=1, uniform | false (the factor is inverted): exact formula and refutation |
| C23 | `fungen.py`, `mlinterp.py` | both bracket computations give the same cell over R |
| C24 | `interp` | `project` = clamp; reduce to C23/C08 |
| C25 | `detect_types`, `make_mlinterp` on a model of argument types | case analysis, any d |
| C26 | `interp` 1-d | monotone on cells, chained |
| C27,C28 | `hermite.py` | per-cell polynomial identities, derivatives, gluing |
| C29 | `n_complete` | binomial recursion; divisions exact |
| C30-C32 | the nested loops of `complete_poly.py` as folds | loop invariant: enumerates non-decreasing index tuples; multiset of monomials; derivative by Coquelicot |
| C33 | `CompletePolynomial` with a least-squares contract | linear algebra over lists |
| C34-C36 | `cartesian.py`, `splines/__init__.py` | division/modulo arithmetic |
| C37 | `permute` | next-permutation theory; completeness |
| C38-C41, C53 | `smolyak/grid.py` combinatorics | list theory, counting, trigonometry |
| C42,C43 | `cheby2n`, `build_B` | Chebyshev recursion, Coquelicot |
| C44 | `find_theta`, `SmolyakInterp` | unisolvence of the sparse grid by triangularity over nested sets |
| C45,C46,C54 | `SmolyakGrid` maps, derivatives | algebra / chain rule |
| C47,C48,C60 | spline classes as state machines | invariants over traces |
| C49 | `eval_cubic_numba.py` gradient routines | inside the domain derivative; outside refuted |
| C50 | `basis_splines.py` | Cox-de Boor induction, Marsden's identity |
| C51 | `eval_spline` | every valid call returns (totality) |
| C52 | option types | the documented default mode is not the one used: refuted |
| C55,C56 | compatibility calls, `grid` attributes | reduction to C13/C01 and to C34 |
| C57-C59 | text of eval_cubic_numba.py | symbolic execution of the parsed text for arbitrary sizes: unrolled blocks are recognised as instances of the model's recursion |
| C61-C63 | texts of basis_splines.py, hermite.py, prefilter_cubic.py | same, with induction on loops and recursion |
| C64,C65 | `gen_program`, interpreter | induction on the list of dimensions: each phase of the program establishes the variables of the next; names of different dimensions shown distinct |
| C66 | text of complete_poly.py | same as C61-C63: the nested loops of each degree are matched with the folds of the model |
| C67-C70 | the models of C01-C20 | mean value theorem on cells, diagonal dominance of the spline system (maximum principle), induction on the dimension; orthogonality of the second derivative of the natural spline (Coquelicot's RInt) |
| C71 | text of filter_cubic.py | same as C63; equality of the two filters by C17 |
| C72 | the evaluators over an arithmetic on R with relative errors | a rounded coordinate is the exact one of a nearby point; the spline is Lipschitz; induction on the dimension. Binary precision p: Flocq's FLX format, rounding to nearest |
| C73-C79 | the models of C01-C20 | C73, C74: the weights are nonnegative and sum to 1, summation by parts along one axis; C75, C76: the cell and the coordinate in it do not change; C77: exchange of finite sums, the prefilter as a sum over cardinal splines; C78: derivatives of the blending functions glued at the nodes; C79: where the data vanish the second differences of the coefficients at least halve from node to node (4 d_i = - d_{i-1} - d_{i+1}), induction on the dimension |
| C80-C82 | the model of C38-C46 | powers written in the Chebyshev basis (t T_n = (T_{n+1} + T_{n-1}) / 2), the space is closed under smaller indices, uniqueness of the coefficients (C44). C82: any correspondence of points that maps grid to grid and basis functions to multiples of basis functions carries values over |
| C83 | texts of smolyak/util.py, grid.py, interp.py | NpSem.v interprets whole-array operations, lists, dicts, generators and classes. Step lemmas for statements and expressions (NpFacts.v), then one lemma per function: the text computes what SmolyakModel.v computes (SmolTextA-F.v). C44, C45, C80 then hold of the texts (SmolTextR.v) |
| C84 | texts of multilinear/fungen.py, mlinterp.py | MlSem.v runs an overload on types, parses the string it returns and runs that on values. MlCps.v gives the second stage in continuation style, proved equal; with unknown numbers it computes, for each number of dimensions and kinds of axes, the tree of all operations of a call (MlText.v `call_tree`), which is then compared with what InterpModel.v did (MlTextA-D.v); loops by induction. C23-C25 then hold of the texts (MlTextE.v) |
| C85 | texts of splines.py, multilinear.py, filter_cubic.py, eval_cubic.py: the four classes | ObSem.v runs a method in continuation style on a heap of arrays and the attributes of the object; array values are places with the views (reshapes) taken of them. With unknown operations it computes, for each number of dimensions, the tree of all operations of a call (ObTextA-D.v); the loop of filter_mcoeffs by induction. A relation between heap and attributes and the states of ObjectModel.v is kept by every method and by the program's writes (ObTextE-G.v), so histories agree and C47, C48 hold of the texts (ObTextH.v) |
| C86 | text of splines.py: the property `grid` | The trees of operations of ObTextA-D.v for `grid`, and for `set_values` when the grid is kept, with the attributes in each order that can occur (ObTextI.v). The relation of C85 is extended by the place of the kept grid, distinct from those of the coefficients and values (ObTextJ.v); histories by induction with `run` as a variable (ObTextK.v). CubicSplines in the same way (ObTextL.v, ObTextM.v) |
| C87 | texts of splines.py and multilinear.py: constructors with values | The trees of operations of the constructor and of `set_values` (ObTextA-D.v) are compared; for CubicSplines both objects stand in the relation of C85 to the same state of the model (PropsObMade.v), histories as in C86 |
| C88 | texts of splines.py and multilinear.py: two objects, one heap (SpecObTwo.v) | Every run of `set_values` and `__call__` only adds arrays to the heap or writes to those it added, read off the trees of operations (ObTextN.v); the relations of C85 for the four classes are stable under that, and hold for the object alone in step with it; induction on the history |

## 3. Trusted base

Coq 8.16.1's kernel (and its VM, used by `vm_compute`; `coqchk` re-checks without it); the axioms
listed in section 4, all from the standard library; the hand translation from Python to Gallina described
in 1.1 or, for the embedded texts, the meaning of Python given by `PySyntax.v`, `PySem.v`, `NpSem.v`, `MlSem.v`, `ObSem.v`, `StrSem.v`.
Coquelicot and mathcomp lemmas are used in proofs; they add no axiom of their own.

## 4. What `Print Assumptions` lists

Every property theorem is followed by `Print Assumptions`; the output, grouped:

* **no axiom** (87): C88_two_objects, C88_gradients, C87_cubic_spline, C87_linear, C87_cubic_splines, C86_cubic_spline, C86_cubic_splines, C86_grid_constant_refuted, C34_cartesian_enumerates, C34_empty_axis_raises, C29_n_complete, C29_exact_division, C30_rejected, C32_matrix_vector_agree, C32_der_matrix_vector_agree, C33_damped_update, C66_complete_polynomial_text, C66_complete_polynomial_der_text, C04_eval_memory_safe, C05_rows_are_points, C06_inplace_rows, C06_inplace_point_partial, C06_inplace_point_refuted, C06_inplace_constant_is_linear, C06_inplace_constant_scalar_outside, C06_inplace_scalar_ignored, C07_vector_rows, C07_vector_point, C52_default_is_nearest_refuted, C80_low_degree, C71_filter_data_text, C71_no_result_text, C64_generated_program_is_model, C64_written_text_is_model, C65_program_values, C28_vector_form, C28_matrix_form, C25_scalars, C25_point_array, C25_rows, C25_array_1d, C25_cartesian, C25_vector_rejected, C25_cartesian_rejected, C84_interp, C84_mlinterp, C84_vector_refused, C84_cartesian_refused, C84_mlinterp_refused, C57_points_text, C57_splines_text, C57_points_splines_text, C57_gradient_values_text, C59_spline, C59_points, C59_splines, C59_points_splines, C59_gradient, C47_cubic_spline, C47_cubic_splines, C47_smolyak, C47_linear_partial, C47_linear_refuted, C47_linear_shares, C56_linear_spline_grid_1d_refuted, C60_linear, C60_nonfinite, C63_allocating_text, C63_inplace_text, C63_linear_text, C63_rejected_text, C16_inplace_equals_allocating, C16_content_irrelevant, C37_permute, C38_smol_inds, C38_wrong_length, C39_grid_size, C39_exact, C53_accepts_only, C61_text_is_model, C62_text_is_model, C85_cubic_spline, C85_cubic_spline_last, C85_cubic_splines, C85_cubic_splines_last, C85_linear, C85_linear_shares.

* **`ClassicalDedekindReals.sig_forall_dec`, `ClassicalDedekindReals.sig_not_dec`, `Classical_Prop.classic`, `FunctionalExtensionality.functional_extensionality_dep`** (60): C50_derivative, C31_derivative_vector, C31_derivative_matrix, C33_der_of_call, C33_der_of_call_vector, C66_text_derivative, C66_text_derivative_vector, C67_second_order, C67_bound_attained, C69_cubic_second_order, C69_cubic_fourth_order, C69_derivative, C69_fourth_order_without_ends_refuted, C70_least_curvature, C10_linear_extrapolation_continues_slope, C12_interpolant_continuous, C19_cubic_partial_derivative, C21_linear_partial_nonuniform, C22_linear_partial_uniform_is_scaled, C22_linear_partial_uniform_refuted, C80_polynomials_exact, C80_gradients_exact, C81_grid_points, C81_grids_nested, C81_refine, C82_linear, C82_units_and_routines, C82_axes, C82_mirror, C49_gradient_partial, C49_gradient_outside_refuted, C27_values_and_slopes, C58_gradient_text, C14_natural_spline_unique, C20_twice_differentiable, C20_natural_ends, C72_rounding_error, C72_binary_arithmetic, C72_linear_one_dim, C78_derivatives_continuous, C83_text_nodes, C83_text_polynomials, C83_text_gradients, C83_text_update, C83_text_flags, C83_text_maps, C40_grid_distinct, C40_huge_mu_refuted, C41_nested_extrema, C41_huge_n_refuted, C43_build_B_gradient, C44_interpolates, C45_grid_in_bounds, C46_gradient, C46_vector_values, C46_vector_values_refuted, C53_accepts_all, C54_sensitivities, C62_text_values_and_slopes, C62_text_forms.

* **`ClassicalDedekindReals.sig_forall_dec`, `ClassicalDedekindReals.sig_not_dec`, `FunctionalExtensionality.functional_extensionality_dep`** (1): C42_chebyshev.

* **`ClassicalDedekindReals.sig_forall_dec`, `ClassicalEpsilon.constructive_indefinite_description`, `Classical_Prop.classic`, `FunctionalExtensionality.functional_extensionality_dep`** (1): C44_case.

* **`ClassicalDedekindReals.sig_forall_dec`, `FunctionalExtensionality.functional_extensionality_dep`** (110): C86_roundtrip, C86_roundtrip_many, C50_is_bspline, C50_support_sign, C50_partition_of_unity, C50_marsden, C50_eval_cubic, C50_repeated_knot_raises, C34_mlinspace, C35_nodes_enumerates, C35_tabulate_then_linear, C35_tabulate_then_cubic, C36_ucgrid, C36_cgrid, C36_ucgrid_nodes_partial, C36_nodes_of_arrays, C36_cgrid_valid_refuted, C36_cgrid_nodes_refuted, C30_every_monomial_once, C33_fit_recovers, C66_n_complete_text, C66_text_monomials, C67_between_corners, C67_modulus_of_continuity, C68_cubic_stable, C51_valid_calls_return, C01_linear_exact_at_nodes, C01_eval_linear_exact_at_nodes, C02_linear_reproduces_multi_affine, C02_eval_linear_reproduces_multi_affine, C03_linear_stays_in_range, C03_eval_linear_stays_in_range, C08_nearest_is_value_at_closest_point, C08_closest_point_exists, C09_constant_zero_outside, C09_constant_invisible_inside, C11_linear_in_coefficients, C19_zero_orders_is_value, C21_linear_higher_orders, C71_same_as_prefilter, C71_texts_interpolate, C49_five_dims_refuted, C28_reproduces_cubics, C28_constant_outside, C23_mlinterp_point, C23_mlinterp_rows, C24_interp_is_nearest, C24_interp_at_node, C24_interp_range, C24_interp_constant_outside, C26_monotone, C84_value, C84_node, C84_range, C84_rows, C58_spline_text, C58_points_text, C58_splines_text, C58_points_splines_text, C48_cubic_spline_nodes, C48_cubic_spline_everywhere, C48_cubic_splines_nodes, C48_cubic_splines_everywhere, C48_linear_nodes, C48_linear_everywhere, C48_cubic_spline_five_dims, C48_cubic_splines_five_dims, C48_cubic_splines_five_dims_nan, C48_five_dims_refuted, C55_legacy_cubic, C55_legacy_cubic_many, C55_legacy_linear, C55_legacy_linear_many_partial, C56_cubic_spline_grid, C56_cubic_spline_roundtrip, C56_linear_spline_grid_partial, C60_cubic_spline, C60_cubic_splines, C63_text_interpolates, C63_texts_interpolate, C63_texts_interpolate_vectors, C13_cubic_interpolates, C13_prefilter_interpolates, C14_equations_unique, C15_filter_total, C17_bounds_irrelevant, C17_linear_in_values, C17_legacy_filter_data_same, C18_cubic_reproduces_multi_affine, C73_monotone, C73_nonexpansive, C73_monotone_outside_refuted, C74_increasing, C74_convex, C75_same_nodes, C75_linspace, C76_values, C76_derivatives, C77_values, C77_derivatives, C77_cubic_data, C79_far_data, C83_text_refuses, C40_code_threshold, C42_build_B, C45_domain_maps, C61_text_is_bspline, C85_cubic_spline_nodes, C85_cubic_splines_nodes, C85_linear_nodes.

* **`PrimFloat.abs`, `PrimFloat.add`, `PrimFloat.div`, `PrimFloat.eqb`, `PrimFloat.float`, `PrimFloat.frshiftexp`, `PrimFloat.leb`, `PrimFloat.ltb`, `PrimFloat.mul`, `PrimFloat.normfr_mantissa`, `PrimFloat.of_uint63`, `PrimFloat.opp`, `PrimFloat.sub`, `PrimInt63.eqb`, `PrimInt63.int`, `PrimInt63.land`, `PrimInt63.lor`, `PrimInt63.lsl`, `PrimInt63.lsr`, `PrimInt63.sub`** (1): C72_range_refuted.

`ClassicalDedekindReals.*` and `functional_extensionality_dep` are the standard library's real numbers;
`classic` comes with Coquelicot's derivatives; `constructive_indefinite_description` is used only in the
examples C44_case and C46_case, to choose a solver that meets the contract of `numpy.linalg.solve`.
## 5. Not modelled

numba's compilation and typing (beyond "this does not compile" errors that are evident from the
text), rounding in numerical theorems, memory layout (Fortran order, strides, read-only arrays),
int64 overflow, threads/`parallel`, performance, plotting of the Smolyak grid, `__repr__`/`__str__`,
`tempita` beyond reading and expanding templates, the `tests` directories. Error *messages* are not
modelled; the class of an error is.

## 6. Status

See MANIFEST.json. Ten claims are `partial`: in each the property is false of the code in some
case, the true part is proved and the false part is refuted by a theorem `..._refuted`. The mutation log
(wrong programs tried against the theorems) is seeded/LOG.jsonl.
