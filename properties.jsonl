{"id": "C01", "title": "Multilinear interpolation is exact at grid nodes", "statement": "eval_linear(grid, values, p) (and eval_spline with k=1), called at a point p that is a node of the cartesian grid, returns exactly the entry of `values` stored for that node, in every extrapolation mode the call form supports.", "quantifier": "every dimension d, every mix of uniform (a,b,n) and strictly increasing non-uniform dimensions, every values array, every node (first and last included); exact real arithmetic", "why_tests_cant": "there are infinitely many grids, values and dimensions; tests only compare a few random grids against each other with a tolerance", "anchors": ["interpolation/splines/eval_splines.py:eval_linear", "interpolation/splines/codegen.py:eval_template", "interpolation/splines/codegen.py:get_values", "interpolation/splines/codegen.py:blending_formula"]}
{"id": "C02", "title": "Multilinear interpolation reproduces multi-affine functions", "statement": "If values are samples of a function that is affine in each coordinate separately, eval_linear returns that function's value at every point, inside the grid and (default/linear mode) outside of it.", "quantifier": "every d, grid, multi-affine function and point of R^d", "why_tests_cant": "a claim about every point of a continuum, including arbitrarily far outside of the grid", "anchors": ["interpolation/splines/eval_splines.py:eval_linear", "interpolation/splines/codegen.py:eval_template"]}
{"id": "C03", "title": "Multilinear interpolation preserves the range of the data", "statement": "For a point inside the grid domain (any mode), or any point at all in NEAREST mode, eval_linear returns a number between the least and the greatest entry of values.", "quantifier": "every d, grid, values array and point", "why_tests_cant": "a bound over a continuum of points and all data arrays", "anchors": ["interpolation/splines/eval_splines.py:eval_linear", "interpolation/splines/codegen.py:blending_formula"]}
{"id": "C04", "title": "Evaluation never touches memory outside the coefficient array", "statement": "When values/coefs has the documented shape and every dimension has at least 2 nodes, eval_linear/eval_cubic/eval_spline never index outside of the arrays they were given, whatever the coordinates of the points are (huge, NaN, infinite).", "quantifier": "every arithmetic (IEEE floats included), d, spline order, extrapolation mode, call form and point", "why_tests_cant": "numba does no bounds checking, an out-of-range read is silent; NaN and overflow inputs are unbounded in number", "anchors": ["interpolation/splines/eval_splines.py:eval_spline", "interpolation/splines/codegen.py:eval_template", "interpolation/splines/codegen.py:eval_template_vectorized"]}
{"id": "C05", "title": "Vectorised evaluation is row-wise evaluation", "statement": "eval_spline on an N x d array of points returns, in row n, exactly what the single-point call returns on row n, for every mode, with or without derivatives, scalar- or vector-valued.", "quantifier": "every arithmetic, N, d, order, mode, diff specification, coefficients", "why_tests_cant": "two separate 150-line templates generate the two code paths; tests only exercise a handful of the option combinations", "anchors": ["interpolation/splines/codegen.py:eval_template", "interpolation/splines/codegen.py:eval_template_vectorized"]}
{"id": "C06", "title": "In-place evaluation equals allocating evaluation", "statement": "After eval_spline(..., points, out=o) the array o holds what the allocating call would have returned, whatever o contained before.", "quantifier": "every arithmetic, initial content of out, points, order, mode and diff specification", "why_tests_cant": "depends on every possible previous content of out; a leftover cell is only visible for particular contents", "anchors": ["interpolation/splines/codegen.py:eval_template", "interpolation/splines/codegen.py:eval_template_vectorized", "interpolation/splines/eval_splines.py:allocate_output"]}
{"id": "C07", "title": "Vector-valued evaluation is component-wise scalar evaluation", "statement": "With values of shape (n1..nd, nx) component j of the result is what the scalar call on values[..., j] returns.", "quantifier": "every arithmetic, nx, d, order, mode, points", "why_tests_cant": "must hold for all numbers of components and every data array", "anchors": ["interpolation/splines/codegen.py:get_values", "interpolation/splines/codegen.py:eval_template"]}
{"id": "C08", "title": "NEAREST extrapolation evaluates at the projection on the grid", "statement": "In NEAREST mode the value at any point equals the value (in any mode) at the closest point of the grid domain.", "quantifier": "every d, order k in {1,3}, point and coefficients, uniform or non-uniform grids where the call form is supported", "why_tests_cant": "a continuum of outside points in every dimension", "anchors": ["interpolation/splines/eval_splines.py:eval_linear", "interpolation/splines/codegen.py:eval_template"]}
{"id": "C09", "title": "CONSTANT extrapolation is zero outside and invisible inside", "statement": "In CONSTANT mode the value is 0 at every point outside of the domain and the value of the other modes at every point inside, in every call form (single point, many points, in place).", "quantifier": "every d, order, point, call form, previous content of out", "why_tests_cant": "each call form is a separate generated code path, and only outside points with non-zero extrapolated values reveal a mistake", "anchors": ["interpolation/splines/codegen.py:eval_template", "interpolation/splines/codegen.py:eval_template_vectorized"]}
{"id": "C10", "title": "LINEAR extrapolation continues with the boundary derivative", "statement": "In LINEAR mode, moving one coordinate out of the domain with the others fixed, the value is the value at the boundary plus the boundary derivative times the distance.", "quantifier": "every d, k in {1,3}, dimension, and distance", "why_tests_cant": "unbounded set of outside points", "anchors": ["interpolation/splines/codegen.py:blending_formula", "docs/splines.md"]}
{"id": "C11", "title": "Evaluation is linear in the coefficients", "statement": "eval_spline(grid, s*C + t*C', p) = s*eval_spline(grid, C, p) + t*eval_spline(grid, C', p) for k=1 and k=3, all modes and derivatives.", "quantifier": "every pair of coefficient arrays, scalars, points", "why_tests_cant": "algebraic law over all arrays", "anchors": ["interpolation/splines/eval_splines.py:eval_spline", "interpolation/splines/codegen.py:gen_trex"]}
{"id": "C12", "title": "The interpolant is continuous", "statement": "In LINEAR and NEAREST mode, p -> eval_linear(grid, values, p) and p -> eval_cubic(grid, coefs, p) are continuous on the whole of R^d: there is no jump when the point crosses from one cell to the next.", "quantifier": "every d, grid, coefficients and point of R^d", "why_tests_cant": "continuity is a limit statement; a jump of any size at one cell border escapes random points", "anchors": ["interpolation/splines/codegen.py:eval_template", "interpolation/splines/codegen.py:blending_formula"]}
{"id": "C13", "title": "Prefiltered cubic splines interpolate the data", "statement": "eval_cubic(grid, filter_cubic(grid, values), node) returns the entry of values stored for that node; same for prefilter(k=3) and vector values.", "quantifier": "every supported dimension (1 to 4), every uniform grid with at least 2 nodes per dimension, every values array, every node", "why_tests_cant": "the band solver eliminates over an unbounded number of rows; tests only check output shapes", "anchors": ["interpolation/splines/prefilter_cubic.py:filter_cubic", "interpolation/splines/eval_splines.py:eval_cubic"]}
{"id": "C14", "title": "Cubic coefficients are the natural spline ones and are unique", "statement": "filter_cubic returns the only coefficient vector satisfying the interpolation equations together with zero second derivative at both ends (docs: natural boundary conditions).", "quantifier": "every number of nodes n >= 2 and every data vector", "why_tests_cant": "uniqueness and correctness of an elimination over unboundedly many rows", "anchors": ["interpolation/splines/prefilter_cubic.py:solve_deriv_interp_1d", "interpolation/splines/prefilter_cubic.py:find_coefs_1d"]}
{"id": "C15", "title": "Prefiltering never fails on a valid grid", "statement": "On a grid with a<b and n>=2 in each dimension filter_cubic never divides by zero, never indexes out of its arrays, and returns an array of shape (n1+2,...,nd+2[,nx]).", "quantifier": "every grid, dimension 1..4, data array", "why_tests_cant": "a vanishing pivot could appear at any of unboundedly many elimination steps", "anchors": ["interpolation/splines/prefilter_cubic.py:solve_deriv_interp_1d", "interpolation/splines/prefilter_cubic.py:filter_cubic"]}
{"id": "C16", "title": "In-place prefiltering does not depend on the content of out", "statement": "prefilter(grid, V, k=3, out=C) leaves in C exactly what prefilter(grid, V, k=3) returns, whatever C held before (and although C is used as scratch space and the band workspace is reused between rows).", "quantifier": "every previous content of C, every V, d in 1..4", "why_tests_cant": "depends on all previous memory contents", "anchors": ["interpolation/splines/prefilter_cubic.py:filter_cubic", "interpolation/splines/prefilter_cubic.py:prefilter"]}
{"id": "C17", "title": "Cubic coefficients depend only on the data, linearly", "statement": "The result of filter_cubic does not depend on the bounds a<b of the grid, is linear in the values, and the legacy filter_coeffs returns the same coefficients as filter_cubic.", "quantifier": "every pair of grids of equal sizes, every pair of data arrays", "why_tests_cant": "two independent copies of the solver; law over all inputs", "anchors": ["interpolation/splines/prefilter_cubic.py:filter_cubic", "interpolation/splines/filter_cubic.py:filter_coeffs"]}
{"id": "C18", "title": "Cubic interpolation reproduces affine functions", "statement": "If values are samples of an affine function, the prefiltered cubic spline returns that function at every point, inside and (linear mode) outside of the grid.", "quantifier": "every grid, affine function and point", "why_tests_cant": "continuum of points", "anchors": ["interpolation/splines/prefilter_cubic.py:filter_cubic", "interpolation/splines/eval_splines.py:eval_cubic"]}
{"id": "C19", "title": "Cubic derivatives returned by eval_spline are the true partial derivatives", "statement": "With k=3 and diff containing a multi-index of zeros and ones, the returned numbers are the corresponding partial derivatives of the function p -> eval_spline(grid, C, p), at every point: cell borders and extrapolation region included.", "quantifier": "every d, coefficient array, multi-index over {0,1}, point of R^d (LINEAR mode)", "why_tests_cant": "a derivative is a limit; tests never compare with one", "anchors": ["interpolation/splines/codegen.py:blending_formula", "interpolation/splines/codegen.py:get_values"]}
{"id": "C20", "title": "The cubic interpolant is twice continuously differentiable", "statement": "On the grid domain the 1-d cubic interpolant has a continuous second derivative, which vanishes at both ends when coefficients come from filter_cubic.", "quantifier": "every n, data, point", "why_tests_cant": "limit statement at every interior node", "anchors": ["interpolation/splines/eval_splines.py:eval_cubic", "interpolation/splines/prefilter_cubic.py:filter_cubic"]}
{"id": "C21", "title": "Linear derivatives on non-uniform grids are the true derivatives", "statement": "With k=1 on non-uniform dimensions, a first-order entry of diff returns the partial derivative of the interpolant at every point that is not on a cell border in this coordinate.", "quantifier": "every d, grid, values, point", "why_tests_cant": "a derivative is a limit; quantifies over a continuum", "anchors": ["interpolation/splines/codegen.py:blending_formula", "interpolation/splines/codegen.py:eval_template"]}
{"id": "C22", "title": "Linear derivatives on uniform grids are the true derivatives", "statement": "With k=1 on uniform dimensions (a,b,n), a first-order entry of diff returns the partial derivative of the interpolant.", "quantifier": "every d, uniform grid, values, point off the cell borders", "why_tests_cant": "tests only use a non-uniform specification, or do not look at the numbers", "anchors": ["interpolation/splines/codegen.py:blending_formula"]}
{"id": "C23", "title": "mlinterp computes the same function as eval_linear", "statement": "mlinterp(grid, values, p) = eval_linear(grid, values, p) (default mode) at every point, although it is a separate implementation with its own index computation.", "quantifier": "every d, uniform or non-uniform grid, values, point, single or many points", "why_tests_cant": "equality of two implementations over a continuum of inputs", "anchors": ["interpolation/multilinear/mlinterp.py:mlinterp", "interpolation/multilinear/fungen.py:get_index", "interpolation/splines/eval_splines.py:eval_linear"]}
{"id": "C24", "title": "interp computes nearest-extrapolated multilinear interpolation", "statement": "interp(*axes, values, point) = eval_linear(grid, values, point, NEAREST): it agrees with the data at nodes, stays in the range of the data, and is constant beyond the grid.", "quantifier": "every d, grid, values, point", "why_tests_cant": "equality of two implementations over a continuum of inputs", "anchors": ["interpolation/multilinear/mlinterp.py:interp", "interpolation/multilinear/fungen.py:project"]}
{"id": "C25", "title": "interp recognises each documented call form", "statement": "For axes x1..xd, values with d dimensions and a point given as d scalars, a tuple, a 1-d array, a 2-d array of rows, or one array per axis (d<=2), interp evaluates at exactly the points meant by the form, and returns results in the corresponding layout; vector values are rejected.", "quantifier": "every d and every argument list of a documented form", "why_tests_cant": "the dispatch is on types of an argument list of unbounded length", "anchors": ["interpolation/multilinear/mlinterp.py:detect_types", "interpolation/multilinear/mlinterp.py:make_mlinterp"]}
{"id": "C26", "title": "1-d interp preserves monotonicity", "statement": "If the values are non-decreasing along the axis, interp(x, y, .) is a non-decreasing function.", "quantifier": "every grid, data, and pair of points", "why_tests_cant": "pairs of points range over a continuum", "anchors": ["interpolation/multilinear/mlinterp.py:interp"]}
{"id": "C27", "title": "Hermite interpolation matches values and slopes at the nodes", "statement": "hermite(x0, x, y, yp) returns y[i] at x[i]; between nodes it is differentiable and at interior nodes its derivative is yp[i].", "quantifier": "every strictly increasing grid, values, slopes, node", "why_tests_cant": "derivatives are limits, over all data", "anchors": ["interpolation/splines/hermite.py:HermiteInterpolation", "interpolation/splines/hermite.py:hermite_interp"]}
{"id": "C28", "title": "Hermite interpolation reproduces cubic polynomials, constant outside", "statement": "If y and yp are the values and derivatives of a polynomial of degree <=3 then hermite returns the polynomial inside of [x[0], x[-1]]; outside it returns y[0] or y[-1].", "quantifier": "every grid, cubic polynomial and point; vector and scalar call forms", "why_tests_cant": "continuum of points and polynomials", "anchors": ["interpolation/splines/hermite.py:HermiteInterpolation", "interpolation/splines/hermite.py:HermiteInterpolationVect"]}
{"id": "C29", "title": "n_complete counts the monomials", "statement": "n_complete(n, d) is the binomial coefficient (n+d choose d), the number of monomials of total degree <= d in n variables; every integer division it makes is exact.", "quantifier": "every n >= 0, d >= 0", "why_tests_cant": "unbounded integers", "anchors": ["interpolation/complete_poly.py:n_complete"]}
{"id": "C30", "title": "complete_polynomial lists every monomial exactly once", "statement": "The basis returned for degree d (0..5) contains each monomial of total degree <= d in the variables exactly once, constant first, and every cell of the output is written.", "quantifier": "every number of variables, every point z, d in 0..5 (d>5 and d<0 are rejected)", "why_tests_cant": "unbounded number of variables; a duplicated or skipped term is invisible to least squares tests", "anchors": ["interpolation/complete_poly.py:complete_polynomial", "interpolation/complete_poly.py:_complete_poly_impl_vec"]}
{"id": "C31", "title": "complete_polynomial_der is the derivative of complete_polynomial", "statement": "Row r of complete_polynomial_der(z, d, der) is the partial derivative with respect to z[der] of row r of complete_polynomial(z, d).", "quantifier": "every number of variables, z, d in 0..5, der", "why_tests_cant": "derivative over a continuum of z and unbounded dimension", "anchors": ["interpolation/complete_poly.py:complete_polynomial_der", "interpolation/complete_poly.py:_complete_poly_der_impl_vec"]}
{"id": "C32", "title": "Matrix and vector forms of the complete polynomial basis agree", "statement": "complete_polynomial and complete_polynomial_der on a matrix of observations return column by column what they return on each observation as a vector.", "quantifier": "every arithmetic, number of variables, number of observations, d, der", "why_tests_cant": "four hand-unrolled copies of the enumeration for every degree", "anchors": ["interpolation/complete_poly.py:_complete_poly_impl", "interpolation/complete_poly.py:_complete_poly_der_impl"]}
{"id": "C33", "title": "CompletePolynomial.der is the derivative of CompletePolynomial.__call__; fits are exact and damped as documented", "statement": "For a fitted CompletePolynomial cp, cp.der(s, i) is the partial derivative of cp(s) in the i-th variable; when data come from a polynomial of degree <= d and the design matrix has full column rank the fit recovers it; with damp, new coefficients are (1-damp)*new + damp*old.", "quantifier": "every coefficients, point, data, damping, history of fits", "why_tests_cant": "ranges over all data and fit histories", "anchors": ["interpolation/complete_poly.py:CompletePolynomial"]}
{"id": "C34", "title": "cartesian enumerates the product in C or F order", "statement": "cartesian(nodes, order) has prod(n_i) rows; row r is the r-th element of the product in row-major order (last index fastest) for 'C' and column-major order (first index fastest) for 'F': each combination occurs exactly once per multi-index.", "quantifier": "every number of axes, every non-empty axes, both orders", "why_tests_cant": "unbounded number of axes and lengths", "anchors": ["interpolation/cartesian.py:cartesian", "interpolation/cartesian.py:_repeat_1d"]}
{"id": "C35", "title": "mlinspace/nodes enumerate the grid that evaluation uses", "statement": "nodes(grid) lists the nodes of a uniform grid in row-major order, so reshaping f(nodes(grid)) to (n1,...,nd) gives values for which eval_linear (and prefiltered eval_cubic) returns f(node) at every listed node.", "quantifier": "every uniform grid, d, function f, row", "why_tests_cant": "composition of enumeration order, reshape and evaluation over unbounded sizes", "anchors": ["interpolation/cartesian.py:mlinspace", "interpolation/splines/__init__.py:nodes", "interpolation/splines/eval_splines.py:eval_linear"]}
{"id": "C36", "title": "UCGrid and CGrid accept exactly the valid specifications, and nodes() works on what they return", "statement": "UCGrid/CGrid accept a specification iff each dimension satisfies the documented conditions and return it unchanged; nodes() on an accepted grid enumerates its nodes.", "quantifier": "every list of dimension specifications", "why_tests_cant": "acceptance is a decision over all inputs", "anchors": ["interpolation/splines/__init__.py:UCGrid", "interpolation/splines/__init__.py:CGrid", "interpolation/splines/__init__.py:nodes"]}
{"id": "C37", "title": "permute yields every distinct permutation exactly once", "statement": "permute(a) terminates and yields each distinct rearrangement of the list a exactly once, in increasing lexicographic order.", "quantifier": "every list of integers of length >= 2", "why_tests_cant": "termination and completeness for every length and multiplicity pattern", "anchors": ["interpolation/smolyak/util.py:permute"]}
{"id": "C38", "title": "smol_inds enumerates exactly the Smolyak indices", "statement": "smol_inds(d, mu) contains every vector i of d positive integers with d <= sum(i) <= d+mu (and i_k <= mu_k+1 for an array mu), each exactly once.", "quantifier": "every d >= 2 and mu >= 1, integer or array", "why_tests_cant": "unbounded d and mu", "anchors": ["interpolation/smolyak/grid.py:smol_inds"]}
{"id": "C39", "title": "The Smolyak grid has the documented number of points", "statement": "The number of rows of build_grid(d, mu) is num_grid_points(d, mu) for mu = 1, 2, 3.", "quantifier": "every d >= 2, mu in {1,2,3}", "why_tests_cant": "unbounded d", "anchors": ["interpolation/smolyak/grid.py:num_grid_points", "interpolation/smolyak/grid.py:build_grid"]}
{"id": "C40", "title": "Smolyak grid points are distinct and as many as basis polynomials", "statement": "build_grid returns pairwise distinct points of [-1,1]^d, as many as poly_inds returns basis polynomials (so B is square), for isotropic and anisotropic mu.", "quantifier": "every d, mu", "why_tests_cant": "unbounded d, mu; a duplicated point makes B singular", "anchors": ["interpolation/smolyak/grid.py:build_grid", "interpolation/smolyak/grid.py:a_chain", "interpolation/smolyak/grid.py:poly_inds"]}
{"id": "C41", "title": "The nested point sets are the Chebyshev extrema", "statement": "a_chain(n) splits the extrema -cos(pi*j/2^(n-1)) into disjoint sets A_1..A_n whose union of the first i is the extrema set s_n(i), with |A_i| = m_i(i) - m_i(i-1) = number of indices in phi_chain at i.", "quantifier": "every n (up to the size where the 1e-14 clean-up of s_n cannot act)", "why_tests_cant": "unbounded n, nested structure", "anchors": ["interpolation/smolyak/grid.py:a_chain", "interpolation/smolyak/grid.py:s_n", "interpolation/smolyak/grid.py:phi_chain", "interpolation/smolyak/grid.py:m_i"]}
{"id": "C42", "title": "build_B evaluates products of Chebyshev polynomials", "statement": "Entry (p, j) of build_B is the product over dimensions of Chebyshev polynomials of the first kind of the indices in row j of poly_inds at point p: T_n(cos t) = cos(n t).", "quantifier": "every d, mu, point", "why_tests_cant": "continuum of points, unbounded degree", "anchors": ["interpolation/smolyak/grid.py:build_B", "interpolation/smolyak/grid.py:cheby2n"]}
{"id": "C43", "title": "build_B derivatives are the gradient of its values", "statement": "The gradient array returned by build_B(deriv=True) is the partial derivative of each basis function in each coordinate, at every point.", "quantifier": "every d, mu, point", "why_tests_cant": "derivative is a limit (source comment: TODO: test this)", "anchors": ["interpolation/smolyak/grid.py:build_B"]}
{"id": "C44", "title": "Smolyak interpolation is exact on the grid", "statement": "SmolyakInterp(sg, f).interpolate(sg.grid) returns f, and the linear system always has exactly one solution.", "quantifier": "every d, mu, bounds, data", "why_tests_cant": "non-singularity of a matrix of unbounded size", "anchors": ["interpolation/smolyak/interp.py:SmolyakInterp", "interpolation/smolyak/grid.py:SmolyakGrid"]}
{"id": "C45", "title": "Domain maps are inverse to each other and keep the grid in bounds", "statement": "dom2cube and cube2dom are inverse to each other, map [lb,ub] to [-1,1]^d and back, so every row of sg.grid lies within the bounds.", "quantifier": "every lb < ub, d, point", "why_tests_cant": "continuum of points", "anchors": ["interpolation/smolyak/grid.py:SmolyakGrid.dom2cube", "interpolation/smolyak/grid.py:SmolyakGrid.cube2dom"]}
{"id": "C46", "title": "Smolyak gradients follow the chain rule", "statement": "interpolate(pts, deriv=True) returns the gradient of the interpolated function in user coordinates.", "quantifier": "every coefficients, bounds, point", "why_tests_cant": "derivative over a continuum", "anchors": ["interpolation/smolyak/interp.py:SmolyakInterp.interpolate"]}
{"id": "C47", "title": "Spline objects depend only on the last accepted values", "statement": "After any sequence of set_values calls (accepted or rejected) and evaluations, a CubicSpline/CubicSplines/LinearSpline/LinearSplines/SmolyakInterp evaluates as a fresh object built with the last accepted values; a rejected call changes nothing.", "quantifier": "every history of calls", "why_tests_cant": "unbounded histories", "anchors": ["interpolation/splines/splines.py:CubicSpline", "interpolation/splines/splines.py:CubicSplines", "interpolation/splines/multilinear.py:LinearSpline", "interpolation/splines/multilinear.py:LinearSplines"]}
{"id": "C48", "title": "Spline objects interpolate the values they were given", "statement": "CubicSpline(a,b,orders,values)(x) and LinearSpline(a,b,orders,values)(x) return values[idx] at node idx, for a single point and for each row of many points; values may be given flat in row-major order.", "quantifier": "every supported dimension, grid, values, node", "why_tests_cant": "all data and sizes", "anchors": ["interpolation/splines/splines.py:CubicSpline", "interpolation/splines/multilinear.py:LinearSpline"]}
{"id": "C49", "title": "Gradients of CubicSplines are true gradients", "statement": "CubicSplines.interpolate(points, diff=True) returns the values and the gradient of the interpolated functions.", "quantifier": "every d in 1..4, points inside and outside of the domain, coefficients", "why_tests_cant": "9000 lines of hand-unrolled code; a derivative is a limit", "anchors": ["interpolation/splines/splines.py:CubicSplines", "interpolation/splines/eval_cubic.py:vec_eval_cubic_splines_G", "interpolation/splines/eval_cubic_numba.py:vec_eval_cubic_splines_G_1"]}
{"id": "C50", "title": "B(p,u,i,x) are the B-spline basis functions", "statement": "B(p,u,i,x) is (u[i+p+1]-u[i]) times the divided difference of (t-x)_+^p over u[i..i+p+1]; it is non-negative, positive inside and zero outside of [u[i], u[i+p+1]); the functions sum to one and reproduce polynomials of degree p on the inner range of the knots; their derivatives obey the usual recursion; eval_cubic is the tensor product of the cubic ones on uniform knots. A repeated knot raises ZeroDivisionError.", "quantifier": "every degree p, strictly increasing knot vector, index and x", "why_tests_cant": "unbounded recursion depth, continuum of x", "anchors": ["interpolation/splines/basis_splines.py:B", "interpolation/splines/basis_splines.py:B0", "interpolation/splines/codegen.py:blending_formula"]}
{"id": "C51", "title": "Every valid call of eval_spline returns, and its value is a function of the point", "statement": "On a valid grid with coefficients of the documented shape and diff entries of supported order, every call form of eval_spline succeeds, and the number returned for a point does not depend on the call form, on the other rows, or on the number of rows.", "quantifier": "every d, grid, k in {1,3}, coefficients, diff, mode, points", "why_tests_cant": "all inputs and all call forms at once", "anchors": ["interpolation/splines/eval_splines.py:eval_spline", "interpolation/splines/codegen.py:eval_template", "interpolation/splines/codegen.py:eval_template_vectorized"]}
{"id": "C52", "title": "Default calls extrapolate with the nearest value", "statement": "docs/index.md line 78: without an extrapolation option, eval_linear uses the nearest value inside of the grid.", "quantifier": "every grid, values, point outside", "why_tests_cant": "statement about all points outside of the grid", "anchors": ["interpolation/splines/eval_splines.py:eval_linear", "docs/index.md"]}
{"id": "C53", "title": "SmolyakGrid accepts exactly the documented arguments", "statement": "SmolyakGrid(d, mu, lb, ub) succeeds exactly when d >= 2, mu is a positive int or d positive ints, and each bound is None, a number or a list/array of d numbers; the stored bounds are those given.", "quantifier": "every d, mu, lb, ub", "why_tests_cant": "all argument combinations", "anchors": ["interpolation/smolyak/grid.py:SmolyakGrid"]}
{"id": "C54", "title": "The sensitivity matrices of SmolyakInterp reproduce the interpolated value", "statement": "interpolate(pts, deriv_th=True, deriv_X=True) returns matrices dth and dX such that the value at each point is dth applied to the coefficients and dX applied to the values on the grid (so they are the derivatives of the value in these).", "quantifier": "every d, mu, bounds, data, points", "why_tests_cant": "all data and points; needs the transposed systems to be solvable for every grid", "anchors": ["interpolation/smolyak/interp.py:SmolyakInterp.interpolate"]}
{"id": "C55", "title": "The legacy functional API interpolates", "statement": "filter_coeffs followed by eval_cubic_spline / vec_eval_cubic_spline, filter_mcoeffs followed by eval_cubic_splines / vec_eval_cubic_splines, and multilinear_interpolation / vec_multilinear_interpolation return the given values at every node, for one point, for rows, and into a given output array.", "quantifier": "every supported dimension, grid, values, node, number of splines", "why_tests_cant": "all data and sizes", "anchors": ["interpolation/splines/eval_cubic.py", "interpolation/splines/filter_cubic.py:filter_coeffs", "interpolation/splines/filter_cubic.py:filter_mcoeffs", "interpolation/splines/multilinear_numba.py"]}
{"id": "C56", "title": "The grid attribute of a spline object enumerates its nodes", "statement": "CubicSpline.grid has one row per node in row-major order, so that s(s.grid) returns the values in the order in which they were given; LinearSpline.grid has one column per node in the same order.", "quantifier": "every dimension, numbers of nodes, bounds", "why_tests_cant": "all sizes and dimensions", "anchors": ["interpolation/splines/splines.py:CubicSpline.grid", "interpolation/splines/multilinear.py:mlinspace"]}
{"id": "C57", "title": "The unrolled cubic routines agree with each other, bit for bit", "statement": "Whenever vec_eval_cubic_spline_d, eval_cubic_splines_d, vec_eval_cubic_splines_d or vec_eval_cubic_splines_G_d (as written in eval_cubic_numba.py) returns, every value it stores is exactly the one eval_cubic_spline_d returns for that point and that component of the coefficients, in whatever arithmetic the code is run (in particular in IEEE doubles).", "quantifier": "d = 1..4, every grid, coefficients, points, numbers of points and splines, any arithmetic", "why_tests_cant": "9000 lines of unrolled text; exact agreement on all inputs, floating point included", "anchors": ["interpolation/splines/eval_cubic_numba.py:eval_cubic_spline_1", "interpolation/splines/eval_cubic_numba.py:vec_eval_cubic_spline_1", "interpolation/splines/eval_cubic_numba.py:eval_cubic_splines_1", "interpolation/splines/eval_cubic_numba.py:vec_eval_cubic_splines_1", "interpolation/splines/eval_cubic_numba.py:vec_eval_cubic_splines_G_1"]}
{"id": "C58", "title": "The unrolled cubic routines as written evaluate the tensor product cubic spline", "statement": "Over the reals, running the text of each of the 20 functions of eval_cubic_numba.py returns the tensor product cubic B-spline with the given coefficients at every point of the domain and its linear extrapolation (the value of eval_spline, k=3) elsewhere, writes nothing but its output arrays, and the G functions return the true partial derivatives in the domain.", "quantifier": "d = 1..4, every grid, coefficients, points, numbers of points and splines", "why_tests_cant": "a single misprinted index or coefficient in 9000 lines of unrolled text matters only for some inputs", "anchors": ["interpolation/splines/eval_cubic_numba.py:eval_cubic_spline_1", "interpolation/splines/eval_cubic_numba.py:vec_eval_cubic_spline_1", "interpolation/splines/eval_cubic_numba.py:eval_cubic_splines_1", "interpolation/splines/eval_cubic_numba.py:vec_eval_cubic_splines_1", "interpolation/splines/eval_cubic_numba.py:vec_eval_cubic_splines_G_1"]}
{"id": "C59", "title": "The model of the unrolled cubic routines is what their text computes", "statement": "Parsing the text of eval_cubic_numba.py and interpreting it gives, for each of the 20 functions, exactly the result of the model (value, arrays written, or error), in any arithmetic.", "quantifier": "d = 1..4, all arguments of the right ranks, any arithmetic", "why_tests_cant": "refinement between 9000 lines of text and a model, for all inputs", "anchors": ["interpolation/splines/eval_cubic_numba.py:eval_cubic_spline_1", "interpolation/splines/eval_cubic_numba.py:vec_eval_cubic_spline_1", "interpolation/splines/eval_cubic_numba.py:eval_cubic_splines_1", "interpolation/splines/eval_cubic_numba.py:vec_eval_cubic_splines_1", "interpolation/splines/eval_cubic_numba.py:vec_eval_cubic_splines_G_1"]}
{"id": "C60", "title": "Spline objects accept exactly the values that fill their grid", "statement": "CubicSpline, CubicSplines, LinearSpline and LinearSplines accept an array of values exactly when its number of entries is the number of nodes (times the number of splines); CubicSpline rejects data with a non-finite entry.", "quantifier": "every grid (cubic: 1..4 dimensions), every shape of the values, any arithmetic for the linear ones and for non-finite data", "why_tests_cant": "all shapes", "anchors": ["interpolation/splines/splines.py:CubicSpline.set_values", "interpolation/splines/splines.py:CubicSplines.set_values", "interpolation/splines/multilinear.py:LinearSpline.set_values", "interpolation/splines/multilinear.py:LinearSplines.set_values"]}
{"id": "C61", "title": "basis_splines.py as written computes B-splines", "statement": "Parsing the text of basis_splines.py and interpreting it, B(p, u, i, x) returns the value (or the error) of the model in any arithmetic, and over the reals, on strictly increasing knots given as a list or an array, the B-spline of degree p on u[i..i+p+1] at x; it writes nothing.", "quantifier": "every degree p, knot vector, index and x, any arithmetic", "why_tests_cant": "unbounded recursion depth, continuum of x", "anchors": ["interpolation/splines/basis_splines.py:B", "interpolation/splines/basis_splines.py:B0"]}
{"id": "C62", "title": "hermite.py as written interpolates values and slopes", "statement": "Parsing the text of hermite.py and interpreting it, hermite(x0, x, y, yp[, out]) on an increasing grid returns at a number the C1 piecewise cubic with the given values and slopes (constant outside), and for a vector or a matrix a new array with the values at its entries (first column); nothing is written, in particular not out.", "quantifier": "every grid, values, slopes, evaluation point, number of points; any arithmetic for the agreement with the model", "why_tests_cant": "continuum of points, all sizes", "anchors": ["interpolation/splines/hermite.py:hermite", "interpolation/splines/hermite.py:ol_hermite", "interpolation/splines/hermite.py:HermiteInterpolation", "interpolation/splines/hermite.py:HermiteInterpolationVect"]}
{"id": "C63", "title": "prefilter_cubic.py as written filters and interpolates", "statement": "Parsing the text of prefilter_cubic.py and interpreting it, prefilter(grid, V[, out][, k]) returns a new array (or writes exactly out) whose entries are those of the model of the filter, in 1 to 4 dimensions, each uniform or given by its nodes; k=1 returns V itself, any other k but 3 is rejected; over the reals on uniform grids the coefficients interpolate, for eval_spline and for the interpreted text of eval_cubic_numba.py.", "quantifier": "every grid in 1..4 dimensions, every size, every number of component axes (in place), every call form, any arithmetic with 6 and 3 not zero for the agreement with the model", "why_tests_cant": "all sizes and data, both texts together", "anchors": ["interpolation/splines/prefilter_cubic.py:prefilter", "interpolation/splines/prefilter_cubic.py:_filter_cubic", "interpolation/splines/prefilter_cubic.py:find_coefs_1d", "interpolation/splines/prefilter_cubic.py:solve_deriv_interp_1d", "interpolation/splines/prefilter_cubic.py:prefilter_cubic"]}
{"id": "C64", "title": "The programs codegen.py writes do what the model of eval_spline says", "statement": "Whenever the model of eval_spline returns, the program the template of codegen.py expands to (as a syntax tree), run by the interpreter in the namespace of eval_splines.py, returns the same value, leaves the same contents in out and changes no other array; likewise the program obtained by expanding the text of codegen.py and parsing the result, for every set of options for which both trees have been compared.", "quantifier": "any number of dimensions, any mix of uniform and non-uniform dimensions, k=1 and 3, every extrapolation mode, every list of derivative orders with one-digit entries, one or many points, scalar or vector values, with or without out, any arithmetic", "why_tests_cant": "the generated programs are an infinite family; the tests evaluate a handful", "anchors": ["interpolation/splines/codegen.py:get_code_spline", "interpolation/splines/codegen.py:gen_trex", "interpolation/splines/codegen.py:get_values", "interpolation/splines/codegen.py:blending_formula", "interpolation/splines/eval_splines.py:allocate_output", "interpolation/splines/eval_splines.py:__eval_spline"]}
{"id": "C65", "title": "What is proved of spline values holds of the generated programs", "statement": "If the value of the spline at a point is v (in the sense used by C01-C22), then the generated program called with an N x d array having this point in row n returns a new array of the right shape with v in row n, for every N and n.", "quantifier": "any number of dimensions, k, orders, extrapolation mode, N, n, any arithmetic", "why_tests_cant": "infinite family of programs, all sizes and points", "anchors": ["interpolation/splines/codegen.py:get_code_spline", "interpolation/splines/eval_splines.py:__eval_spline"]}
{"id": "C66", "title": "complete_poly.py as written evaluates complete polynomials and their derivatives", "statement": "Parsing the text of complete_poly.py and interpreting it, complete_polynomial(z, d) and complete_polynomial_der(z, d, der) return a new array with the contents (or the error) of the model and write nothing else, n_complete(n, d) returns the binomial coefficient; over the reals, for d <= 5, the rows are all monomials of degree at most d, each once, and the rows of the second are the partial derivatives of the rows of the first.", "quantifier": "every array z of any shape, every d and der, any arithmetic for complete_polynomial, any arithmetic with 1*x = x for the derivative", "why_tests_cant": "all numbers of variables and of observations", "anchors": ["interpolation/complete_poly.py:n_complete", "interpolation/complete_poly.py:complete_polynomial", "interpolation/complete_poly.py:_complete_poly_impl", "interpolation/complete_poly.py:_complete_poly_impl_vec", "interpolation/complete_poly.py:complete_polynomial_der", "interpolation/complete_poly.py:_complete_poly_der_impl", "interpolation/complete_poly.py:_complete_poly_der_impl_vec"]}
{"id": "C67", "title": "Error of piecewise multilinear interpolation", "statement": "The value of the linear spline at a point lies between the least and the greatest of the data at the corners of the cell of the point; if the data are values of f it differs from f by at most the variation of f over the cell, and by at most the sum over the dimensions of M_j h_j^2 / 8 if |d2f/dx_j^2| <= M_j, h_j being the length of the cell. The last bound is attained, by a sum of parabolas, in the middle of each cell.", "quantifier": "any number of dimensions, any mix of uniform and non-uniform dimensions, every f, point of the domain and extrapolation mode", "why_tests_cant": "all functions, a continuum of points", "anchors": ["interpolation/splines/codegen.py:get_code_spline", "interpolation/splines/eval_splines.py:eval_linear"]}
{"id": "C68", "title": "Perturbing the data perturbs the cubic spline by a bounded factor", "statement": "If two data arrays differ by at most eps at every node, the two prefiltered cubic splines differ by at most (5/2)^d eps everywhere in the domain, whatever the number of nodes.", "quantifier": "d = 1..4, every size of the grid, every point of the domain, all data", "why_tests_cant": "the factor must not depend on the number of nodes", "anchors": ["interpolation/splines/prefilter_cubic.py:filter_cubic", "interpolation/splines/prefilter_cubic.py:solve_deriv_interp_1d", "interpolation/splines/eval_splines.py:eval_cubic"]}
{"id": "C69", "title": "Error of cubic spline interpolation", "statement": "If the data are values of f, the prefiltered cubic spline differs from f by O(h^2) if the second derivatives along the axes are bounded and by O(h^4) if the fourth derivatives are and the second ones vanish at the ends, with the explicit constants 1/2 and 7/64 and 5/2 per further dimension; in one dimension the first derivative differs by at most 4 M h, respectively 7/8 M h^3. Without the condition at the ends the fourth order fails.", "quantifier": "d = 1..4, every size of the grid, every f, every point of the domain", "why_tests_cant": "all functions and sizes, a continuum of points", "anchors": ["interpolation/splines/prefilter_cubic.py:filter_cubic", "interpolation/splines/eval_splines.py:eval_cubic"]}
{"id": "C70", "title": "The cubic interpolant has the least curvature", "statement": "In one dimension the integral of the square of the second derivative of the prefiltered cubic spline is at most that of any twice continuously differentiable function through the same data, the difference being the integral of the square of the difference of the second derivatives; equality holds only for the spline itself.", "quantifier": "every uniform grid, all data, every function through the data", "why_tests_cant": "quantifies over an infinite-dimensional set of functions", "anchors": ["interpolation/splines/prefilter_cubic.py:filter_cubic", "interpolation/splines/eval_splines.py:eval_cubic"]}
{"id": "C71", "title": "filter_cubic.py as written filters as prefilter_cubic.py does", "statement": "Parsing the text of filter_cubic.py and interpreting it, filter_data(dinv, data) returns a new array with the contents (or the error) of the model and writes no array that existed before; for no dimension, or five and more, it returns None. Over the reals, for any steps other than 0, the array equals the one returned by the text of prefilter_cubic.py, and the text of eval_cubic_numba.py reproduces the data at the nodes.", "quantifier": "1 to 4 dimensions and all sizes of the data, every number of dimensions for None, every nonempty array, any arithmetic in which 3 and 6 are not 0; over the reals every valid grid with 2 nodes or more", "why_tests_cant": "all sizes and all data; the two modules have no test comparing them", "anchors": ["interpolation/splines/filter_cubic.py:filter_data", "interpolation/splines/filter_cubic.py:filter_coeffs_1d", "interpolation/splines/filter_cubic.py:filter_coeffs_2d", "interpolation/splines/filter_cubic.py:filter_coeffs_3d", "interpolation/splines/filter_cubic.py:filter_coeffs_4d", "interpolation/splines/filter_cubic.py:find_coefs_1d", "interpolation/splines/filter_cubic.py:solve_deriv_interp_1d"]}
{"id": "C72", "title": "Rounding errors of spline evaluation are bounded", "statement": "If each of + - * / has a relative error of at most u (comparisons, floor and small integers exact, no overflow or underflow), the value computed by the linear and cubic evaluators differs from the exact value of the spline by at most ((1+e_1)...(1+e_d) - 1) max|C|, with e_j = 14 n_j u (linear), 100 n_j u (cubic) or 12 u (linear, non-uniform dimension). Binary floating point of precision p is such an arithmetic with u = 2^-p. The computed value is not exact at nodes and can leave the range of the coefficients.", "quantifier": "any number of dimensions, any mix of uniform and non-uniform ones, every point of the domain (every point at all with the modes constant and nearest), all coefficients, every u <= 1/200 with n_j u <= 1/200", "why_tests_cant": "all roundings, a continuum of points, all sizes; the bound must hold although a rounding may move the point to another cell", "anchors": ["interpolation/splines/codegen.py:get_code_spline", "interpolation/splines/eval_splines.py:eval_linear", "interpolation/splines/eval_splines.py:eval_cubic"]}
{"id": "C73", "title": "Linear interpolation is monotone and nonexpansive in the values", "statement": "If one array of values is at most another at every node, so are the interpolated values; if they differ by at most eps at every node, the interpolated values differ by at most eps. Outside of the domain this holds with the modes constant and nearest, and is false with linear extrapolation.", "quantifier": "any number of dimensions, any mix of uniform and non-uniform ones, all arrays, every point", "why_tests_cant": "all pairs of arrays, a continuum of points", "anchors": ["interpolation/splines/codegen.py:get_code_spline", "interpolation/splines/eval_splines.py:eval_linear"]}
{"id": "C74", "title": "Linear interpolation keeps monotonicity and convexity along an axis", "statement": "If the values do not decrease along one axis, neither does the interpolated function along that axis; if their slopes do not decrease, the interpolated function is convex along the axis. Linear extrapolation keeps both, nearest keeps monotonicity.", "quantifier": "any number of dimensions and position of the axis, any mix of uniform and non-uniform ones, all values, every line of points", "why_tests_cant": "all values, a continuum of points; tests compare single values", "anchors": ["interpolation/splines/codegen.py:get_code_spline", "interpolation/splines/eval_splines.py:eval_linear"]}
{"id": "C75", "title": "(a, b, n) and the array of its nodes describe the same grid", "statement": "A dimension given as (a, b, n) and one given as the array linspace(a, b, n) interpolate the same values alike at every point, inside and outside of the domain, with every extrapolation mode.", "quantifier": "any number of dimensions, any choice of the form of each dimension, all values, every point", "why_tests_cant": "the two forms run different generated code; a continuum of points", "anchors": ["interpolation/splines/codegen.py:get_code_spline", "interpolation/splines/eval_splines.py:eval_linear"]}
{"id": "C76", "title": "Interpolation does not depend on units", "statement": "If the grid and the points are transformed by x -> s x + t (s > 0) in each dimension, interpolated values do not change, and the derivatives of order o returned by the cubic evaluator are divided by s_1^o_1 ... s_d^o_d.", "quantifier": "any number of dimensions, all positive scales and all shifts, every point, every extrapolation mode, linear and cubic", "why_tests_cant": "all scales, a continuum of points", "anchors": ["interpolation/splines/codegen.py:get_code_spline", "interpolation/splines/eval_splines.py:eval_linear", "interpolation/splines/eval_splines.py:eval_cubic"]}
{"id": "C77", "title": "Exchanging two axes exchanges the arguments", "statement": "If two neighbouring dimensions of the grid and of the coefficients (or, for the cubic spline, of the data given to the prefilter) are exchanged, the value at the point with exchanged coordinates is the same, and so is the derivative with exchanged orders. Neighbouring exchanges generate all permutations.", "quantifier": "any number of dimensions (1 to 4 with the prefilter) and position, all coefficients, every point", "why_tests_cant": "all dimensions, orders and data; tests fix one layout", "anchors": ["interpolation/splines/codegen.py:get_code_spline", "interpolation/splines/eval_splines.py:eval_cubic", "interpolation/splines/prefilter_cubic.py:filter_cubic"]}
{"id": "C78", "title": "The derivatives returned by the cubic evaluator are continuous", "statement": "Each derivative (order 0 or 1 in each dimension) returned by the cubic evaluator is a continuous function of the point, also across cells and the boundary of the domain, with linear and nearest extrapolation.", "quantifier": "any number of dimensions, all coefficients, every point", "why_tests_cant": "continuity quantifies over a neighbourhood of every point", "anchors": ["interpolation/splines/codegen.py:get_code_spline", "interpolation/splines/eval_splines.py:eval_cubic"]}
{"id": "C79", "title": "A cubic spline hardly depends on data far away", "statement": "If two data arrays agree at all nodes less than m steps away from a point (in every coordinate) and differ by at most eps elsewhere, the cubic splines differ at the point by at most 6 d (5/2)^(d-1) 2^-m eps, whatever the number of nodes.", "quantifier": "d = 1..4, every size of the grid, every m, all data, every point of the domain", "why_tests_cant": "all sizes and data; the prefilter is a global solve, locality is not visible in the code", "anchors": ["interpolation/splines/prefilter_cubic.py:filter_cubic", "interpolation/splines/eval_splines.py:eval_cubic"]}
{"id": "C80", "title": "Smolyak interpolation reproduces the polynomials of its space", "statement": "If the values given to SmolyakInterp are those of a polynomial each term of which fits some index of the grid (exponent 0 where the entry is 1, at most 2^(i-1) where it is i >= 2) - in particular a polynomial of total degree at most mu - then interpolate returns the polynomial at every point, in the domain or outside, for numbers and vectors, and deriv=True returns its gradient.", "quantifier": "every d >= 2, isotropic and anisotropic mu, bounds, polynomial of the space, evaluation points", "why_tests_cant": "all polynomials, densities and points", "anchors": ["interpolation/smolyak/interp.py:SmolyakInterp", "interpolation/smolyak/grid.py:SmolyakGrid"]}
{"id": "C81", "title": "Smolyak grids are nested and refinement loses nothing", "statement": "The points of the grid are the points the coordinates of which are Chebyshev extrema of the levels of one index. With the same bounds and a density nowhere smaller the grid contains the coarser one, and interpolating on it the values of an interpolant of the coarser grid gives the same function everywhere.", "quantifier": "every d >= 2, pairs of isotropic or anisotropic densities, bounds, values, points", "why_tests_cant": "all pairs of densities and all points", "anchors": ["interpolation/smolyak/interp.py:SmolyakInterp", "interpolation/smolyak/grid.py:SmolyakGrid", "interpolation/smolyak/grid.py:build_grid"]}
{"id": "C82", "title": "Smolyak interpolation is linear and does not depend on units, on the order or the direction of axes, or on the solver", "statement": "A combination of values interpolates to the combination of the interpolants. Changing the bounds moves the grid with them and corresponding points get the same value. Giving dimensions (density, bounds, points) in another order, or mirroring an axis, gives the grid and the values of the corresponding points. Two LU and two solve routines that meet their documentation give the same values.", "quantifier": "every d >= 2, mu, bounds, values, points, every order of the axes", "why_tests_cant": "all orders, densities and points", "anchors": ["interpolation/smolyak/interp.py:SmolyakInterp", "interpolation/smolyak/grid.py:SmolyakGrid"]}
{"id": "C83", "title": "The Smolyak modules as written interpolate", "statement": "Parsing the texts of smolyak/util.py, grid.py and interp.py and interpreting them: SmolyakGrid(d, mu, lb, ub) refuses the densities, dimensions and bounds it documents and otherwise returns an object with the grid; SmolyakInterp(g, f).interpolate(g.grid) returns f; the polynomials of the space of the grid and their gradients are reproduced at every point; update_theta(f') gives the object SmolyakInterp(g, f') gives; dom2cube and cube2dom are inverse of each other; any combination of the flags, by position, by name or by default, returns what the model returns, and the attributes are those of the model.", "quantifier": "every d >= 2, mu (int, array or list of ints, up to 47), bounds (absent, numbers, lists), values (numbers or vectors), points; any LU and solve routine meeting its documentation", "why_tests_cant": "all dimensions, densities, values and points", "anchors": ["interpolation/smolyak/util.py:permute", "interpolation/smolyak/grid.py:cheby2n", "interpolation/smolyak/grid.py:m_i", "interpolation/smolyak/grid.py:s_n", "interpolation/smolyak/grid.py:a_chain", "interpolation/smolyak/grid.py:phi_chain", "interpolation/smolyak/grid.py:build_grid", "interpolation/smolyak/grid.py:smol_inds", "interpolation/smolyak/grid.py:poly_inds", "interpolation/smolyak/grid.py:build_B", "interpolation/smolyak/grid.py:SmolyakGrid", "interpolation/smolyak/interp.py:find_theta", "interpolation/smolyak/interp.py:SmolyakInterp"]}
{"id": "C84", "title": "The multilinear modules as written interpolate", "statement": "Parsing the texts of multilinear/fungen.py and mlinterp.py and running them in two stages, as numba does (an overload is run on the types of the arguments and returns the code to run on their values, often code it has just written as a string): interp and mlinterp return what the model returns, for every kind of call; interp at a tuple returns the multilinear interpolant at the closest point of the domain, the data at the nodes, a value within the range of the data everywhere; rows give the values at the rows; vector values, three vectors of points and mlinterp on a vector are refused.", "quantifier": "1 to 3 dimensions, each axis evenly or unevenly spaced in every position, all sizes, data and points; points as a tuple, numbers, an array, rows, or two vectors", "why_tests_cant": "all sizes, data and points; code generated from the types of the arguments", "anchors": ["interpolation/multilinear/fungen.py:ol_get_index", "interpolation/multilinear/fungen.py:_map", "interpolation/multilinear/fungen.py:ol_funzip", "interpolation/multilinear/fungen.py:ol_get_coeffs", "interpolation/multilinear/fungen.py:gen_tensor_reduction", "interpolation/multilinear/fungen.py:ol_tensor_reduction", "interpolation/multilinear/fungen.py:ol_extract_row", "interpolation/multilinear/fungen.py:ol_project", "interpolation/multilinear/mlinterp.py:ol_mlinterp", "interpolation/multilinear/mlinterp.py:detect_types", "interpolation/multilinear/mlinterp.py:make_mlinterp", "interpolation/multilinear/mlinterp.py:ol_interp"]}
{"id": "C85", "title": "The spline classes as written keep and use their values", "statement": "Parsing the texts of splines.py, multilinear.py, filter_cubic.py and eval_cubic.py and running the methods of their classes on a heap of arrays: a program makes an object and then calls set_values (accepted or not), writes to its own arrays and calls the object, in any order. The program's arrays change by its own writes only (and by an output array it passes); every call returns what the model of the object returns; a CubicSpline or CubicSplines gives what a new object would give with the values of the last accepted set_values as they were then, a LinearSpline or LinearSplines what a new one would give with the present content of that array if it is C-contiguous float64 and with the content at the call otherwise; an object made with values that fill the grid returns them at the nodes.", "quantifier": "all histories, 1 to 4 dimensions, all bounds, orders, values and points, any arithmetic (nodes: real arithmetic); points as a vector or rows; gradients of CubicSplines", "why_tests_cant": "all histories of calls and writes; sharing of memory between the program and the object", "anchors": ["interpolation/splines/splines.py:CubicSpline", "interpolation/splines/splines.py:CubicSplines", "interpolation/splines/multilinear.py:LinearSpline", "interpolation/splines/multilinear.py:LinearSplines", "interpolation/splines/filter_cubic.py:filter_coeffs", "interpolation/splines/filter_cubic.py:filter_mcoeffs", "interpolation/splines/eval_cubic.py:vec_eval_cubic_splines_G"]}
{"id": "C86", "title": "The grid of a cubic spline as written: computed once, kept, shared with the program, never used by calls", "statement": "Running the text of splines.py: a program makes a CubicSpline or CubicSplines, then calls set_values, writes to its arrays, calls the object, reads the property grid and writes to the array that grid gave, in any order. Its own arrays and the results of all calls are as if the grid had not been read or written to; every reading gives the array of the first reading, which is none of the program's other arrays, with the nodes (mlinspace of bounds and orders, last index fastest) changed by the program's writes to it only. Evaluating a spline (or several) at its own grid returns its values in order. That grid always gives the nodes is false: the program may have written to the kept array.", "quantifier": "all histories, 1 to 4 dimensions, all bounds, orders, values, points, any arithmetic (evaluation at the grid: real arithmetic)", "why_tests_cant": "all histories of readings, writings, set_values and calls; absence of sharing between the kept grid and the coefficients", "anchors": ["interpolation/splines/splines.py:CubicSpline.grid", "interpolation/splines/splines.py:CubicSplines.grid", "interpolation/cartesian.py:mlinspace"]}
{"id": "C87", "title": "A spline object made with values is one made without them whose set_values is called", "statement": "Running the texts of splines.py and multilinear.py: C(a, b, orders, values) does the same as s = C(a, b, orders) followed by s.set_values(values). For CubicSpline, LinearSpline and LinearSplines the objects, memory and outcomes (also exceptions) are equal. For CubicSplines both raise, or no further history of set_values, writes, calls and readings of the grid tells the two objects apart: same outcomes, same arrays of the program, same values, gradients and grid.", "quantifier": "all bounds, orders and values arrays, 1 to 4 dimensions, all later histories, any arithmetic", "why_tests_cant": "all later histories and all (also ill-shaped) values; equality of the hidden state", "anchors": ["interpolation/splines/splines.py:CubicSpline.__init__", "interpolation/splines/splines.py:CubicSplines.__init__", "interpolation/splines/multilinear.py:LinearSpline.__init__", "interpolation/splines/multilinear.py:LinearSplines.__init__"]}
{"id": "C88", "title": "Two spline objects in one program do not affect each other", "statement": "Running the texts of splines.py and multilinear.py: a program makes two objects of any of the classes CubicSpline, CubicSplines, LinearSpline, LinearSplines, then calls set_values of either (also with the same array), calls either and writes to its own arrays, in any order. A call of one object (for CubicSplines also the gradients) then gives what it gives in the program without the deeds with the other object, and the program's arrays are changed by the program only.", "quantifier": "all pairs of classes, all interleaved histories, 1 to 4 dimensions each, all bounds, orders, values, points, any arithmetic", "why_tests_cant": "all interleavings; absence of hidden shared state between objects", "anchors": ["interpolation/splines/splines.py:CubicSpline.set_values", "interpolation/splines/splines.py:CubicSplines.set_values", "interpolation/splines/multilinear.py:LinearSpline.set_values", "interpolation/splines/multilinear.py:LinearSplines.set_values"]}
