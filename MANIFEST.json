{
 "claims": [
  {
   "property": "C01",
   "status": "proved",
   "theorems": [
    "C01_linear_exact_at_nodes",
    "C01_eval_linear_exact_at_nodes"
   ],
   "note": ""
  },
  {
   "property": "C02",
   "status": "proved",
   "theorems": [
    "C02_linear_reproduces_multi_affine",
    "C02_eval_linear_reproduces_multi_affine"
   ],
   "note": ""
  },
  {
   "property": "C03",
   "status": "proved",
   "theorems": [
    "C03_linear_stays_in_range",
    "C03_eval_linear_stays_in_range"
   ],
   "note": ""
  },
  {
   "property": "C04",
   "status": "proved",
   "theorems": [
    "C04_eval_memory_safe"
   ],
   "note": ""
  },
  {
   "property": "C05",
   "status": "proved",
   "theorems": [
    "C05_rows_are_points"
   ],
   "note": ""
  },
  {
   "property": "C06",
   "status": "partial",
   "theorems": [
    "C06_inplace_rows",
    "C06_inplace_point_partial",
    "C06_inplace_point_refuted",
    "C06_inplace_constant_is_linear",
    "C06_inplace_constant_scalar_outside",
    "C06_inplace_scalar_ignored"
   ],
   "note": "Proved for rows in every mode and for one point in LINEAR/NEAREST mode. False for one point in CONSTANT mode (C06_inplace_point_refuted); the exact behaviour of the remaining forms is proved for every arithmetic (C06_inplace_constant_is_linear, C06_inplace_constant_scalar_outside, C06_inplace_scalar_ignored)."
  },
  {
   "property": "C07",
   "status": "proved",
   "theorems": [
    "C07_vector_rows",
    "C07_vector_point"
   ],
   "note": ""
  },
  {
   "property": "C08",
   "status": "proved",
   "theorems": [
    "C08_nearest_is_value_at_closest_point",
    "C08_closest_point_exists"
   ],
   "note": ""
  },
  {
   "property": "C09",
   "status": "partial",
   "theorems": [
    "C09_constant_zero_outside",
    "C09_constant_invisible_inside",
    "C06_inplace_rows",
    "C06_inplace_point_refuted",
    "C06_inplace_constant_is_linear"
   ],
   "note": "Proved for every allocating form (rows and one point), and in place for rows through C06_inplace_rows. False for one vector-valued point in place (C06_inplace_point_refuted, C06_inplace_constant_is_linear gives the exact behaviour)."
  },
  {
   "property": "C10",
   "status": "proved",
   "theorems": [
    "C10_linear_extrapolation_continues_slope"
   ],
   "note": ""
  },
  {
   "property": "C11",
   "status": "proved",
   "theorems": [
    "C11_linear_in_coefficients"
   ],
   "note": ""
  },
  {
   "property": "C12",
   "status": "proved",
   "theorems": [
    "C12_interpolant_continuous"
   ],
   "note": ""
  },
  {
   "property": "C13",
   "status": "proved",
   "theorems": [
    "C13_cubic_interpolates",
    "C13_prefilter_interpolates"
   ],
   "note": ""
  },
  {
   "property": "C14",
   "status": "proved",
   "theorems": [
    "C14_equations_unique",
    "C14_natural_spline_unique"
   ],
   "note": ""
  },
  {
   "property": "C15",
   "status": "proved",
   "theorems": [
    "C15_filter_total"
   ],
   "note": ""
  },
  {
   "property": "C16",
   "status": "proved",
   "theorems": [
    "C16_inplace_equals_allocating",
    "C16_content_irrelevant"
   ],
   "note": ""
  },
  {
   "property": "C17",
   "status": "proved",
   "theorems": [
    "C17_bounds_irrelevant",
    "C17_linear_in_values",
    "C17_legacy_filter_data_same"
   ],
   "note": ""
  },
  {
   "property": "C18",
   "status": "proved",
   "theorems": [
    "C18_cubic_reproduces_multi_affine"
   ],
   "note": ""
  },
  {
   "property": "C19",
   "status": "proved",
   "theorems": [
    "C19_cubic_partial_derivative",
    "C19_zero_orders_is_value"
   ],
   "note": ""
  },
  {
   "property": "C20",
   "status": "proved",
   "theorems": [
    "C20_twice_differentiable",
    "C20_natural_ends"
   ],
   "note": ""
  },
  {
   "property": "C21",
   "status": "proved",
   "theorems": [
    "C21_linear_partial_nonuniform",
    "C21_linear_higher_orders"
   ],
   "note": ""
  },
  {
   "property": "C22",
   "status": "partial",
   "theorems": [
    "C22_linear_partial_uniform_is_scaled",
    "C22_linear_partial_uniform_refuted"
   ],
   "note": "The property is false of the code: C22_linear_partial_uniform_refuted is a counterexample, C22_linear_partial_uniform_is_scaled proves the exact value (spacing squared times the derivative) for all inputs."
  },
  {
   "property": "C23",
   "status": "proved",
   "theorems": [
    "C23_mlinterp_point",
    "C23_mlinterp_rows"
   ],
   "note": ""
  },
  {
   "property": "C24",
   "status": "proved",
   "theorems": [
    "C24_interp_is_nearest",
    "C24_interp_at_node",
    "C24_interp_range",
    "C24_interp_constant_outside"
   ],
   "note": ""
  },
  {
   "property": "C25",
   "status": "proved",
   "theorems": [
    "C25_scalars",
    "C25_point_array",
    "C25_rows",
    "C25_array_1d",
    "C25_cartesian",
    "C25_vector_rejected",
    "C25_cartesian_rejected"
   ],
   "note": ""
  },
  {
   "property": "C26",
   "status": "proved",
   "theorems": [
    "C26_monotone"
   ],
   "note": ""
  },
  {
   "property": "C27",
   "status": "proved",
   "theorems": [
    "C27_values_and_slopes"
   ],
   "note": ""
  },
  {
   "property": "C28",
   "status": "proved",
   "theorems": [
    "C28_reproduces_cubics",
    "C28_constant_outside",
    "C28_vector_form",
    "C28_matrix_form"
   ],
   "note": ""
  },
  {
   "property": "C29",
   "status": "proved",
   "theorems": [
    "C29_n_complete",
    "C29_exact_division"
   ],
   "note": ""
  },
  {
   "property": "C30",
   "status": "proved",
   "theorems": [
    "C30_every_monomial_once",
    "C30_rejected"
   ],
   "note": ""
  },
  {
   "property": "C31",
   "status": "proved",
   "theorems": [
    "C31_derivative_vector",
    "C31_derivative_matrix"
   ],
   "note": ""
  },
  {
   "property": "C32",
   "status": "proved",
   "theorems": [
    "C32_matrix_vector_agree",
    "C32_der_matrix_vector_agree"
   ],
   "note": ""
  },
  {
   "property": "C33",
   "status": "proved",
   "theorems": [
    "C33_der_of_call",
    "C33_der_of_call_vector",
    "C33_fit_recovers",
    "C33_damped_update"
   ],
   "note": ""
  },
  {
   "property": "C34",
   "status": "proved",
   "theorems": [
    "C34_cartesian_enumerates",
    "C34_empty_axis_raises",
    "C34_mlinspace"
   ],
   "note": ""
  },
  {
   "property": "C35",
   "status": "proved",
   "theorems": [
    "C35_nodes_enumerates",
    "C35_tabulate_then_linear",
    "C35_tabulate_then_cubic"
   ],
   "note": ""
  },
  {
   "property": "C36",
   "status": "partial",
   "theorems": [
    "C36_ucgrid",
    "C36_cgrid",
    "C36_ucgrid_nodes_partial",
    "C36_nodes_of_arrays",
    "C36_cgrid_valid_refuted",
    "C36_cgrid_nodes_refuted"
   ],
   "note": "UCGrid: fully proved (accepts exactly the documented specifications, nodes enumerates them). CGrid: acceptance characterised exactly; the rest is refuted - it accepts arrays that are not increasing, and nodes() of an accepted grid with an array dimension returns other points or raises IndexError."
  },
  {
   "property": "C37",
   "status": "proved",
   "theorems": [
    "C37_permute"
   ],
   "note": ""
  },
  {
   "property": "C38",
   "status": "proved",
   "theorems": [
    "C38_smol_inds",
    "C38_wrong_length"
   ],
   "note": ""
  },
  {
   "property": "C39",
   "status": "proved",
   "theorems": [
    "C39_grid_size",
    "C39_exact"
   ],
   "note": ""
  },
  {
   "property": "C40",
   "status": "proved",
   "theorems": [
    "C40_grid_distinct",
    "C40_code_threshold",
    "C40_huge_mu_refuted"
   ],
   "note": "For the threshold 1e-14 of s_n the hypothesis tiny_ok holds for mu <= 47 (C40_code_threshold); for mu >= 49 the clean-up makes grid points coincide (C40_huge_mu_refuted). Reals, not floats."
  },
  {
   "property": "C41",
   "status": "proved",
   "theorems": [
    "C41_nested_extrema",
    "C41_huge_n_refuted"
   ],
   "note": "For the threshold 1e-14 the hypothesis holds for n <= 48; for n >= 50 the sets are not disjoint (C41_huge_n_refuted)."
  },
  {
   "property": "C42",
   "status": "proved",
   "theorems": [
    "C42_build_B",
    "C42_chebyshev"
   ],
   "note": ""
  },
  {
   "property": "C43",
   "status": "proved",
   "theorems": [
    "C43_build_B_gradient"
   ],
   "note": ""
  },
  {
   "property": "C44",
   "status": "proved",
   "theorems": [
    "C44_interpolates"
   ],
   "note": "scipy's lu and numpy's solve enter through what they document (lu_ok, solve_ok); unisolvence of the Smolyak system itself is proved."
  },
  {
   "property": "C45",
   "status": "proved",
   "theorems": [
    "C45_domain_maps",
    "C45_grid_in_bounds"
   ],
   "note": ""
  },
  {
   "property": "C46",
   "status": "partial",
   "theorems": [
    "C46_gradient",
    "C46_vector_values",
    "C46_vector_values_refuted"
   ],
   "note": "Proved for numbers as values (C46_gradient). False for vector values: the chain-rule factors are applied along the wrong axis (C46_vector_values_refuted); C46_vector_values says what is returned or raised for every number of components."
  },
  {
   "property": "C47",
   "status": "partial",
   "theorems": [
    "C47_cubic_spline",
    "C47_cubic_splines",
    "C47_smolyak",
    "C47_linear_partial",
    "C47_linear_refuted",
    "C47_linear_shares"
   ],
   "note": "Proved for CubicSpline, CubicSplines and SmolyakInterp for every history. False for LinearSpline and LinearSplines when the caller writes to an array that set_values received without copying (C47_linear_refuted); C47_linear_shares says what happens for every history."
  },
  {
   "property": "C48",
   "status": "proved",
   "theorems": [
    "C48_cubic_spline_nodes",
    "C48_cubic_spline_everywhere",
    "C48_cubic_splines_nodes",
    "C48_cubic_splines_everywhere",
    "C48_linear_nodes",
    "C48_linear_everywhere",
    "C48_cubic_spline_five_dims",
    "C48_cubic_splines_five_dims",
    "C48_cubic_splines_five_dims_nan",
    "C48_five_dims_refuted"
   ],
   "note": ""
  },
  {
   "property": "C49",
   "status": "partial",
   "theorems": [
    "C49_gradient_partial",
    "C49_gradient_outside_refuted",
    "C49_five_dims_refuted"
   ],
   "note": "Proved: the values everywhere, and the partial derivative in every coordinate that lies in the domain, d = 1..4. False outside of the domain (C49_gradient_outside_refuted) and for d >= 5 (C49_five_dims_refuted)."
  },
  {
   "property": "C50",
   "status": "proved",
   "theorems": [
    "C50_is_bspline",
    "C50_support_sign",
    "C50_partition_of_unity",
    "C50_marsden",
    "C50_derivative",
    "C50_eval_cubic",
    "C50_repeated_knot_raises"
   ],
   "note": ""
  },
  {
   "property": "C51",
   "status": "proved",
   "theorems": [
    "C51_valid_calls_return"
   ],
   "note": ""
  },
  {
   "property": "C52",
   "status": "partial",
   "theorems": [
    "C52_default_is_nearest_refuted"
   ],
   "note": "False of the code: the default mode is linear (C52_default_is_nearest_refuted; C02 with mode None gives the actual behaviour)."
  },
  {
   "property": "C53",
   "status": "proved",
   "theorems": [
    "C53_accepts_only",
    "C53_accepts_all"
   ],
   "note": ""
  },
  {
   "property": "C54",
   "status": "proved",
   "theorems": [
    "C54_sensitivities"
   ],
   "note": ""
  },
  {
   "property": "C55",
   "status": "partial",
   "theorems": [
    "C55_legacy_cubic",
    "C55_legacy_cubic_many",
    "C55_legacy_linear",
    "C55_legacy_linear_many_partial"
   ],
   "note": "vec_multilinear_interpolation with an output array always raises NameError; everything else proved."
  },
  {
   "property": "C56",
   "status": "partial",
   "theorems": [
    "C56_cubic_spline_grid",
    "C56_cubic_spline_roundtrip",
    "C56_linear_spline_grid_partial",
    "C56_linear_spline_grid_1d_refuted"
   ],
   "note": "LinearSpline.grid raises in one dimension (C56_linear_spline_grid_1d_refuted); everything else proved."
  },
  {
   "property": "C57",
   "status": "proved",
   "theorems": [
    "C57_points_text",
    "C57_splines_text",
    "C57_points_splines_text",
    "C57_gradient_values_text"
   ],
   "note": ""
  },
  {
   "property": "C58",
   "status": "proved",
   "theorems": [
    "C58_spline_text",
    "C58_points_text",
    "C58_splines_text",
    "C58_points_splines_text",
    "C58_gradient_text"
   ],
   "note": ""
  },
  {
   "property": "C59",
   "status": "proved",
   "theorems": [
    "C59_spline",
    "C59_points",
    "C59_splines",
    "C59_points_splines",
    "C59_gradient"
   ],
   "note": ""
  },
  {
   "property": "C60",
   "status": "proved",
   "theorems": [
    "C60_cubic_spline",
    "C60_cubic_splines",
    "C60_linear",
    "C60_nonfinite"
   ],
   "note": ""
  },
  {
   "property": "C61",
   "status": "proved",
   "theorems": [
    "C61_text_is_model",
    "C61_text_is_bspline"
   ],
   "note": ""
  },
  {
   "property": "C62",
   "status": "proved",
   "theorems": [
    "C62_text_values_and_slopes",
    "C62_text_forms",
    "C62_text_is_model"
   ],
   "note": ""
  },
  {
   "property": "C63",
   "status": "proved",
   "theorems": [
    "C63_allocating_text",
    "C63_inplace_text",
    "C63_linear_text",
    "C63_rejected_text",
    "C63_text_interpolates",
    "C63_texts_interpolate",
    "C63_texts_interpolate_vectors"
   ],
   "note": ""
  },
  {
   "property": "C64",
   "status": "proved",
   "theorems": [
    "C64_generated_program_is_model",
    "C64_written_text_is_model"
   ],
   "note": ""
  },
  {
   "property": "C65",
   "status": "proved",
   "theorems": [
    "C65_program_values"
   ],
   "note": ""
  },
  {
   "property": "C66",
   "status": "proved",
   "theorems": [
    "C66_complete_polynomial_text",
    "C66_complete_polynomial_der_text",
    "C66_n_complete_text",
    "C66_text_monomials",
    "C66_text_derivative",
    "C66_text_derivative_vector"
   ],
   "note": ""
  },
  {
   "property": "C67",
   "status": "proved",
   "theorems": [
    "C67_between_corners",
    "C67_modulus_of_continuity",
    "C67_second_order",
    "C67_bound_attained"
   ],
   "note": ""
  },
  {
   "property": "C68",
   "status": "proved",
   "theorems": [
    "C68_cubic_stable"
   ],
   "note": ""
  },
  {
   "property": "C69",
   "status": "proved",
   "theorems": [
    "C69_cubic_second_order",
    "C69_cubic_fourth_order",
    "C69_derivative",
    "C69_fourth_order_without_ends_refuted"
   ],
   "note": "C69_fourth_order_without_ends_refuted shows that the condition on the second derivative at the ends cannot be dropped from C69_cubic_fourth_order."
  },
  {
   "property": "C70",
   "status": "proved",
   "theorems": [
    "C70_least_curvature"
   ],
   "note": ""
  },
  {
   "property": "C71",
   "status": "proved",
   "theorems": [
    "C71_filter_data_text",
    "C71_no_result_text",
    "C71_same_as_prefilter",
    "C71_texts_interpolate"
   ],
   "note": ""
  },
  {
   "property": "C72",
   "status": "proved",
   "theorems": [
    "C72_rounding_error",
    "C72_binary_arithmetic",
    "C72_linear_one_dim",
    "C72_range_refuted"
   ],
   "note": "The arithmetic has no overflow and no underflow (Flocq's FLX format). C72_range_refuted is the counterexample, in binary64, to exactness at nodes and to the range property C03 in floating point."
  },
  {
   "property": "C73",
   "status": "proved",
   "theorems": [
    "C73_monotone",
    "C73_nonexpansive",
    "C73_monotone_outside_refuted"
   ],
   "note": "C73_monotone_outside_refuted is the counterexample for linear extrapolation."
  },
  {
   "property": "C74",
   "status": "proved",
   "theorems": [
    "C74_increasing",
    "C74_convex"
   ],
   "note": ""
  },
  {
   "property": "C75",
   "status": "proved",
   "theorems": [
    "C75_same_nodes",
    "C75_linspace"
   ],
   "note": ""
  },
  {
   "property": "C76",
   "status": "proved",
   "theorems": [
    "C76_values",
    "C76_derivatives"
   ],
   "note": ""
  },
  {
   "property": "C77",
   "status": "proved",
   "theorems": [
    "C77_values",
    "C77_derivatives",
    "C77_cubic_data"
   ],
   "note": ""
  },
  {
   "property": "C78",
   "status": "proved",
   "theorems": [
    "C78_derivatives_continuous"
   ],
   "note": ""
  },
  {
   "property": "C79",
   "status": "proved",
   "theorems": [
    "C79_far_data"
   ],
   "note": ""
  },
  {
   "property": "C80",
   "status": "proved",
   "theorems": [
    "C80_polynomials_exact",
    "C80_gradients_exact",
    "C80_low_degree"
   ],
   "note": "The gradient for numbers as values (see C46 for vectors)."
  },
  {
   "property": "C81",
   "status": "proved",
   "theorems": [
    "C81_grid_points",
    "C81_grids_nested",
    "C81_refine"
   ],
   "note": ""
  },
  {
   "property": "C82",
   "status": "proved",
   "theorems": [
    "C82_linear",
    "C82_units_and_routines",
    "C82_axes",
    "C82_mirror"
   ],
   "note": ""
  },
  {
   "property": "C83",
   "status": "proved",
   "theorems": [
    "C83_text_nodes",
    "C83_text_polynomials",
    "C83_text_gradients",
    "C83_text_update",
    "C83_text_flags",
    "C83_text_maps",
    "C83_text_refuses"
   ],
   "note": "Objects and arrays are values in the interpreter (NpSem.v): aliasing is not part of this property."
  },
  {
   "property": "C84",
   "status": "proved",
   "theorems": [
    "C84_interp",
    "C84_mlinterp",
    "C84_value",
    "C84_node",
    "C84_range",
    "C84_rows",
    "C84_vector_refused",
    "C84_cartesian_refused",
    "C84_mlinterp_refused"
   ],
   "note": "One to three dimensions: the code generated for each number of dimensions is executed symbolically."
  },
  {
   "property": "C85",
   "status": "proved",
   "theorems": [
    "C85_cubic_spline",
    "C85_cubic_spline_last",
    "C85_cubic_splines",
    "C85_cubic_splines_last",
    "C85_linear",
    "C85_linear_shares",
    "C85_cubic_spline_nodes",
    "C85_cubic_splines_nodes",
    "C85_linear_nodes"
   ],
   "note": "One to four dimensions, lists of equal length as bounds and orders. The compiled functions that the methods call are operations given by the model (their texts are the subject of C64, C65 and C71)."
  },
  {
   "property": "C86",
   "status": "proved",
   "theorems": [
    "C86_cubic_spline",
    "C86_cubic_splines",
    "C86_roundtrip",
    "C86_roundtrip_many",
    "C86_grid_constant_refuted"
   ],
   "note": "mlinspace is an operation given by the model (C34). LinearSpline.grid has another mlinspace (C56) and is not run from its text."
  },
  {
   "property": "C87",
   "status": "proved",
   "theorems": [
    "C87_cubic_spline",
    "C87_linear",
    "C87_cubic_splines"
   ],
   "note": "The state and objects are those of the interpreter of C85."
  },
  {
   "property": "C88",
   "status": "proved",
   "theorems": [
    "C88_two_objects",
    "C88_gradients"
   ],
   "note": "Histories have no readings of the grid (C86) and no calls of interpolate with a container for the result. An exception of one program is an exception of the other, the kind of exception is not compared."
  }
 ]
}
