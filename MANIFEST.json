{
 "claims": [
  {
   "property": "C01",
   "status": "proved",
   "theorems": [
    "C01_node_tuples_pn"
   ],
   "note": ""
  },
  {
   "property": "C02",
   "status": "proved",
   "theorems": [
    "C02_node_tuples_tp"
   ],
   "note": ""
  },
  {
   "property": "C03",
   "status": "proved",
   "theorems": [
    "C03_tensor_product_nodes",
    "C03_columns_are_combinations",
    "C03_tensor_product_nodes_int"
   ],
   "note": "If the total dimension is 0 the code returns one column (proved); numbers of nodes of zero-dimensional sets are then ignored."
  },
  {
   "property": "C04",
   "status": "proved",
   "theorems": [
    "C04_reshape",
    "C04_unreshape",
    "C04_unreshape_reshape",
    "C04_reshape_unreshape",
    "C04_reshape_mismatch",
    "C04_unreshape_mismatch",
    "C04_bad_axis"
   ],
   "note": ""
  },
  {
   "property": "C05",
   "status": "proved",
   "theorems": [
    "C05_shared_ordering"
   ],
   "note": "Orthonormal bases of simplex factors of dimension at most 3 (others are not implemented by the code)."
  },
  {
   "property": "C06",
   "status": "proved",
   "theorems": [
    "C06_orthonormal",
    "C06_monomial",
    "C06_nested"
   ],
   "note": "Gradients of zero-dimensional orthonormal bases raise NotImplementedError in the code; hence dimension >= 1 for the gradient part."
  },
  {
   "property": "C07",
   "status": "proved",
   "theorems": [
    "C07_flat",
    "C07_dims",
    "C07_accepts",
    "C07_single_simplex",
    "C07_single_product",
    "C07_vertices",
    "C07_nfaces",
    "C07_hypercube",
    "C07_single_hypercube_refuted",
    "C07_nfaces_point_factor_refuted",
    "C07_nfaces_hypercube0_refuted"
   ],
   "note": "Collapsing a single hypercube factor raises TypeError; face counts with zero-dimensional factors are wrong: refuted cases are separate theorems."
  },
  {
   "property": "C08",
   "status": "proved",
   "theorems": [
    "C08_flat",
    "C08_flattens",
    "C08_succeeds",
    "C08_dims",
    "C08_QN",
    "C08_space_for_shape",
    "C08_simplex_order_tuple",
    "C08_order",
    "C08_single_QN_refuted",
    "C08_QN0_order_refuted"
   ],
   "note": "TensorProductSpace((QN(d,n),)) raises TypeError and QN(0,n).order IndexError (findings)."
  },
  {
   "property": "C09",
   "status": "proved",
   "theorems": [
    "C09_faces",
    "C09_refused"
   ],
   "note": "Faces exist for simplices and hypercubes of dimension 1-3; every other shape is refused (finding: faces_for_shape has no 4-D table and no prism branch)."
  },
  {
   "property": "C10",
   "status": "proved",
   "theorems": [
    "C10_normals"
   ],
   "note": "The unnormalised normal is a positive multiple of the unit normal."
  },
  {
   "property": "C11",
   "status": "proved",
   "theorems": [
    "C11_simplex",
    "C11_order0",
    "C11_refused",
    "C11_lattice"
   ],
   "note": "Includes conformity: two elements that meet do so in the face spanned by their common nodes."
  },
  {
   "property": "C12",
   "status": "proved",
   "theorems": [
    "C12_hypercube",
    "C12_lattice",
    "C12_prism_refuted"
   ],
   "note": "Holds for every d and n, and for the lattice in any order. Found: for prisms the same function omits the inverted triangles, so its result is not a tessellation."
  },
  {
   "property": "C13",
   "status": "proved",
   "theorems": [
    "C13_equispaced_simplex",
    "C13_equispaced_product",
    "C13_user_tuples",
    "C13_mismatch"
   ],
   "note": ""
  },
  {
   "property": "C14",
   "status": "proved",
   "theorems": [
    "C14_random_simplex",
    "C14_random_shape"
   ],
   "note": "Termination of the rejection loop is not claimed (fuel-bounded model)."
  },
  {
   "property": "C15",
   "status": "proved",
   "theorems": [
    "C15_barycentric_round_trip",
    "C15_unit_round_trip",
    "C15_barycentric",
    "C15_vertices",
    "C15_equilateral",
    "C15_equilateral_other",
    "C15_equilateral_edges",
    "C15_inverse",
    "C15_inverse_defined",
    "C15_jacobians"
   ],
   "note": ""
  },
  {
   "property": "C16",
   "status": "proved",
   "theorems": [
    "C16_call",
    "C16_simplex",
    "C16_hypercube",
    "C16_hypercube_call",
    "C16_hypercube_factor_refuted",
    "C16_diff",
    "C16_diff_defined",
    "C16_diff_argument_refuted"
   ],
   "note": "Findings: hypercube_integral ignores the factor; diff differentiates with respect to the scaled coordinate, not the argument; the docstring of simplex_integral names the unit simplex but the value is for the bi-unit simplex."
  },
  {
   "property": "C17",
   "status": "proved",
   "theorems": [
    "C17_jacobi_orthonormal_nat",
    "C17_jacobi_orthonormal_real",
    "C17_window_refuted"
   ],
   "note": "Proved also for all real a, b > -1 outside the tolerance window of the code around a+b=-1, where the constant is only approximate (C17_window_refuted)."
  },
  {
   "property": "C18",
   "status": "proved",
   "theorems": [
    "C18_grad_jacobi"
   ],
   "note": "The tolerance window 0 < |a+b+1| < 1e-14 is excluded: there the code replaces the normalisation by its limit."
  },
  {
   "property": "C19",
   "status": "proved",
   "theorems": [
    "C19_scaled_jacobi"
   ],
   "note": ""
  },
  {
   "property": "C20",
   "status": "proved",
   "theorems": [
    "C20_triangle_orthonormal",
    "C20_code_integral",
    "C20_strip_refuted"
   ],
   "note": "The polynomial the code evaluates is exactly orthonormal; inside the code tolerance strip |s-1|<1e-12 the returned value differs from that polynomial, and the integral of the code values has the explicit defect of C20_code_integral / C20_strip_refuted."
  },
  {
   "property": "C21",
   "status": "proved",
   "theorems": [
    "C21_tetrahedron_orthonormal"
   ],
   "note": "The code agrees with the polynomials off the tolerance strips and on the collapsed set."
  },
  {
   "property": "C22",
   "status": "proved",
   "theorems": [
    "C22_grad_pkdo_2d",
    "C22_grad_pkdo_2d_limit",
    "C22_grad_pkdo_3d",
    "C22_grad_pkdo_3d_limit"
   ],
   "note": "Off the tolerance strips; on the collapsed set the value is the limit."
  },
  {
   "property": "C23",
   "status": "proved",
   "theorems": [
    "C23_monomial",
    "C23_mismatch",
    "C23_axis_refuted"
   ],
   "note": "diff_monomial with an axis outside 0..dim-1 silently returns the undifferentiated monomial (C23_axis_refuted)."
  },
  {
   "property": "C24",
   "status": "proved",
   "theorems": [
    "C24_product",
    "C24_gradients",
    "C24_constructors",
    "C24_axis_refuted",
    "C24_negative_axis",
    "C24_axis_out_of_range"
   ],
   "note": "Derivative statement off the tolerance strips of triangle/tetrahedron factors; out-of-range axis returns undifferentiated functions (finding)."
  },
  {
   "property": "C25",
   "status": "proved",
   "theorems": [
    "C25_orthonormal",
    "C25_for_space",
    "C25_hypercube"
   ],
   "note": "Simplex factors of dimension 1..3. With triangle/tetrahedron factors the statement is about the polynomials that the code evaluates off the tolerance strips."
  },
  {
   "property": "C26",
   "status": "proved",
   "theorems": [
    "C26_exact",
    "C26_square_only",
    "C26_identity",
    "C26_composition",
    "C26_nonsquare",
    "C26_singular",
    "C26_least_squares"
   ],
   "note": "Least squares: exact on the span for full column rank, best approximant for arbitrary data."
  },
  {
   "property": "C27",
   "status": "proved",
   "theorems": [
    "C27_exact",
    "C27_mismatch",
    "C27_basis"
   ],
   "note": "The functions always return a tuple, in one dimension of length one."
  },
  {
   "property": "C28",
   "status": "proved",
   "theorems": [
    "C28_mass",
    "C28_lagrange",
    "C28_for_space",
    "C28_refused",
    "C28_accepted"
   ],
   "note": "For the bases of modepy on node sets off the tolerance strips of C20/C21."
  },
  {
   "property": "C29",
   "status": "proved",
   "theorems": [
    "C29_test_matrix",
    "C29_test_matrix_mapped",
    "C29_bilinear",
    "C29_equals_mass",
    "C29_test_matrix_succeeds",
    "C29_flat_refuted"
   ],
   "note": "C29_flat_refuted: nodes=None with flat 1-D rule nodes raises IndexError."
  },
  {
   "property": "C30",
   "status": "proved",
   "theorems": [
    "C30_permutation",
    "C30_exch_meaning",
    "C30_keyerror",
    "C30_matrices",
    "C30_monomials"
   ],
   "note": ""
  },
  {
   "property": "C31",
   "status": "proved",
   "theorems": [
    "C31_bound",
    "C31_at_least_one",
    "C31_defined",
    "C31_dimension"
   ],
   "note": "orders n >= 1 (the code divides by zero for n = 0)"
  },
  {
   "property": "C32",
   "status": "proved",
   "theorems": [
    "C32_exact",
    "C32_exact_to",
    "C32_empty",
    "C32_defined",
    "C32_nodes"
   ],
   "note": ""
  },
  {
   "property": "C33",
   "status": "proved",
   "theorems": [
    "C33_product",
    "C33_exact",
    "C33_honest",
    "C33_exact_to",
    "C33_defined"
   ],
   "note": ""
  },
  {
   "property": "C34",
   "status": "proved",
   "theorems": [
    "C34_pn",
    "C34_pn_exact",
    "C34_pn_fallback",
    "C34_pn_mismatch",
    "C34_tp_mismatch",
    "C34_not_implemented_refuted",
    "C34_tp",
    "C34_exact",
    "C34_tp_defined",
    "C34_tp_assertion",
    "C34_tp_isotropic",
    "C34_anisotropic_refuted",
    "C34_legendre_gauss_tp",
    "C34_legendre_gauss_lobatto_tp"
   ],
   "note": "PN case for every order, dimension and table; TP case: when a rule is returned it reaches every factor order and integrates the whole space, exact condition for success. Findings: AttributeError instead of NotImplementedError for a TP space on a non-TP shape, AssertionError for anisotropic spaces such as P1 x P5. Rule tables and the eigensolver are parameters."
  },
  {
   "property": "C35",
   "status": "proved",
   "theorems": [
    "C35_defined",
    "C35_exact",
    "C35_exact_to",
    "C35_nodes",
    "C35_volume"
   ],
   "note": ""
  },
  {
   "property": "C36",
   "status": "proved",
   "theorems": [
    "C36_euclid",
    "C36_simplify",
    "C36_zero_over_zero",
    "C36_canonical",
    "C36_distinct_nodes"
   ],
   "note": ""
  },
  {
   "property": "C37",
   "status": "proved",
   "theorems": [
    "C37_exact",
    "C37_exact_real",
    "C37_rule",
    "C37_unique",
    "C37_refused",
    "C37_special_cases",
    "C37_decomposition_exists"
   ],
   "note": "The eigenvalue routine is an argument with the stated specification; C37_decomposition_exists shows that it can be met for all N. Real parameters (improper integral) outside the code 1e-14 windows, the hard-coded Chebyshev branch included."
  },
  {
   "property": "C38",
   "status": "proved",
   "theorems": [
    "C38_legendre_exact",
    "C38_legendre_rule",
    "C38_refused",
    "C38_nodes",
    "C38_nodes_flat_refuted",
    "C38_jacobi_refuted",
    "C38_gegenbauer_refuted",
    "C38_eigh_exists"
   ],
   "note": "First half (Legendre) proved for all N >= 1. The second half (Jacobi weight) is false of the code: refuted for alpha=1, beta=0, N=1 and for alpha=beta=1, N=2."
  },
  {
   "property": "C39",
   "status": "proved",
   "theorems": [
    "C39_clenshaw_curtis",
    "C39_fejer1",
    "C39_fejer2",
    "C39_refused",
    "C39_node_order"
   ],
   "note": "np.fft.ifft is modelled by its defining sum, complex numbers as pairs of reals. Finding: nodes descend except for N = 1 (C39_node_order)."
  },
  {
   "property": "C40",
   "status": "proved",
   "theorems": [
    "C40_identity",
    "C40_sausage",
    "C40_sausage_refused",
    "C40_kosloff_tal_ezer",
    "C40_kosloff_tal_ezer_refused",
    "C40_rule",
    "C40_change_of_variables",
    "C40_sausage_exact",
    "C40_legendre_gauss",
    "C40_not_1d"
   ],
   "note": "Maps, their derivatives, refusals, the change of variables and the polynomial degree of the sausage-transplanted rule."
  },
  {
   "property": "C41",
   "status": "proved",
   "theorems": [
    "C41_size",
    "C41_panel",
    "C41_symmetric"
   ],
   "note": "for all rule data of the right size; kronrod returns data of that size when eigvalsh returns as many values as rows"
  },
  {
   "property": "C42",
   "status": "proved",
   "theorems": [
    "C42_invariant",
    "C42_worst",
    "C42_stop",
    "C42_quadgk",
    "C42_too_few"
   ],
   "note": "heapq enters through its documented contract relative to Segment.__lt__ (heap_ok); real-valued integrands"
  },
  {
   "property": "C43",
   "status": "proved",
   "theorems": [
    "C43_both_map",
    "C43_pos_map",
    "C43_neg_map",
    "C43_both_integrand",
    "C43_pos_integrand",
    "C43_neg_integrand",
    "C43_both_panel",
    "C43_pos_panel",
    "C43_neg_panel",
    "C43_both_improper",
    "C43_pos_improper",
    "C43_neg_improper",
    "C43_both_run",
    "C43_pos_run",
    "C43_neg_run",
    "C43_reverse_panel",
    "C43_reverse",
    "C43_wrong_end",
    "C43_weights_positive",
    "C43_wrong_half_line_refuted",
    "C43_reverse_ties_refuted"
   ],
   "note": "Runs on infinite intervals are related to finite runs when the rule nodes lie strictly inside (-1,1). Reversal of a whole adaptive run is proved for finite limits when no two panels tie for the largest error; per panel it is unconditional; C43_reverse_ties_refuted shows that the hypothesis is needed. Reversed infinite limits are refuted: quadgk(f, a, -inf) integrates over (a, inf)."
  },
  {
   "property": "C44",
   "status": "proved",
   "theorems": [
    "C44_trichotomy",
    "C44_transitive",
    "C44_antisymmetric",
    "C44_top",
    "C44_min",
    "C44_min_float",
    "C44_add",
    "C44_two_infinities_refuted"
   ],
   "note": "Findings: the sentinel cannot be compared with np.inf, which ZeroDimensionalQuadrature advertises; isinf is false there; adding from the left raises TypeError."
  },
  {
   "property": "C45",
   "status": "proved",
   "theorems": [
    "C45_row",
    "C45_rows",
    "C45_short"
   ],
   "note": ""
  },
  {
   "property": "C46",
   "status": "proved",
   "theorems": [
    "C46_estimator",
    "C46_degree_simplex",
    "C46_degree_product",
    "C46_empty_product_refuted"
   ],
   "note": "finding: a product basis with no factors has no degree vector"
  },
  {
   "property": "C47",
   "status": "proved",
   "theorems": [
    "C47_linear_combination",
    "C47_plain",
    "C47_flattened",
    "C47_consistent_refuted",
    "C47_tuple_refuted"
   ],
   "note": "Whenever linearly_combine returns, the result evaluates to the linear combination (both branches). Found: consistent inputs can be rejected (ValueError/AssertionError) because the coefficient matrix is assumed n x n; combinations holding a tuple are never flattened."
  },
  {
   "property": "C48",
   "status": "proved",
   "theorems": [
    "C48_orthonormal",
    "C48_returns",
    "C48_refused",
    "C48_mass_matrix",
    "C48_routines_exist",
    "C48_mass_hermitian_refuted"
   ],
   "note": "Cholesky and triangular solve enter through their specifications, which are shown satisfiable. Found: _mass_matrix does not conjugate the upper triangle, so it is not the Gram matrix for complex functions (harmless for Cholesky, which reads the lower triangle)."
  },
  {
   "property": "C49",
   "status": "proved",
   "theorems": [
    "C49_shapes_and_entries",
    "C49_residual_zero",
    "C49_weight_jacobian",
    "C49_node_jacobian",
    "C49_increment",
    "C49_increment_solves",
    "C49_succeeds",
    "C49_wrong_axes",
    "C49_wrong_count",
    "C49_flat_refuted"
   ],
   "note": "lstsq is modelled as the minimal-norm least-squares solution. Found: node arrays of shape (nnodes,), although documented, always raise ValueError."
  },
  {
   "property": "C50",
   "status": "proved",
   "theorems": [
    "C50_weights",
    "C50_square",
    "C50_succeeds",
    "C50_mismatch",
    "C50_warning_flat",
    "C50_warning_refuted"
   ],
   "note": "Also minimality of the norm among exact weights. Found: the underdetermined warning compares with ndim, not nnodes, for (ndim, nnodes) arrays."
  },
  {
   "property": "C51",
   "status": "proved",
   "theorems": [
    "C51_one_dim",
    "C51_one_dim_tuples",
    "C51_triangle",
    "C51_triangle_nodes",
    "C51_tetrahedron",
    "C51_tetrahedron_nodes",
    "C51_refused"
   ],
   "note": "For every blending parameter. The orders are bounded by the tolerances in the code: n < 2*10^10 on the triangle (the warp is switched off within 1e-10 of the end points), n <= 10^8 on the tetrahedron (face test with tolerance 1e-8)."
  },
  {
   "property": "C52",
   "status": "proved",
   "theorems": [
    "C52_jacobi",
    "C52_modes",
    "C52_functions",
    "C52_gradients",
    "C52_derivatives",
    "C52_any_arithmetic"
   ],
   "note": "pymbolic is external: its expression arithmetic is modelled; C52_any_arithmetic covers every arithmetic with a homomorphic evaluation."
  },
  {
   "property": "C53",
   "status": "proved",
   "theorems": [
    "C53_refuted"
   ],
   "note": "The claim is false: the zero-dimensional basis function is the constant 2; the refutation is proved."
  },
  {
   "property": "C54",
   "status": "proved",
   "theorems": [
    "C54_matrix",
    "C54_charpoly",
    "C54_vector",
    "C54_newton"
   ],
   "note": ""
  },
  {
   "property": "C55",
   "status": "proved",
   "theorems": [
    "C55_range",
    "C55_normal_equations",
    "C55_fit_defined"
   ],
   "note": ""
  },
  {
   "property": "C56",
   "status": "proved",
   "theorems": [
    "C56_gauss_exact",
    "C56_gauss_refused",
    "C56_eigvalsh_exists"
   ],
   "note": "eigvalsh is an argument that returns the exact eigenvalues of the matrix it is given; C56_eigvalsh_exists shows such a routine exists."
  },
  {
   "property": "C57",
   "status": "proved",
   "theorems": [
    "C57_kronrod_exact"
   ],
   "note": "positivity of the coefficients computed by the Laurie algorithm beyond the Legendre ones is a hypothesis, as in the statement (checked for n = 1, 2)."
  },
  {
   "property": "C58",
   "status": "proved",
   "theorems": [
    "C58_quadgk_exact"
   ],
   "note": ""
  },
  {
   "property": "C59",
   "status": "proved",
   "theorems": [
    "C59_strip",
    "C59_strip_refused",
    "C59_change_of_variables"
   ],
   "note": "ellipk/ellipj are specified by their mathematical definition (SpecElliptic.v; existence proved); the root finder for the parameter is an argument."
  },
  {
   "property": "C60",
   "status": "proved",
   "theorems": [
    "C60_triangle",
    "C60_tetrahedron",
    "C60_triangle_set",
    "C60_tetrahedron_set"
   ],
   "note": "Triangle: every order. Tetrahedron: n <= 10^8, the tolerance of the face test."
  },
  {
   "property": "C61",
   "status": "proved",
   "theorems": [
    "C61_faces"
   ],
   "note": "n <= 10^8, the tolerance of the face test. The blending parameter is the same on both sides; the public functions use different parameters for triangles and tetrahedra."
  },
  {
   "property": "C62",
   "status": "proved",
   "theorems": [
    "C62_gauss",
    "C62_lagrange",
    "C62_lobatto",
    "C62_lobatto_inexact",
    "C62_refused"
   ],
   "note": ""
  },
  {
   "property": "C63",
   "status": "proved",
   "theorems": [
    "C63_embedded",
    "C63_interlaced",
    "C63_same_as_gauss"
   ],
   "note": "For all n for which the coefficients that the algorithm adds are positive (as in C57; checked for n = 7 and n = 10). Laurie's algorithm is verified: its mixed moments, in-place loops included."
  },
  {
   "property": "C64",
   "status": "proved",
   "theorems": [
    "C64_no_refinement"
   ],
   "note": "Same hypothesis on n as C57 and C63; exact arithmetic."
  },
  {
   "property": "C65",
   "status": "proved",
   "theorems": [
    "C65_lattice",
    "C65_equispaced",
    "C65_interpolation",
    "C65_span",
    "C65_resampling",
    "C65_differentiation",
    "C65_mass",
    "C65_permutation"
   ],
   "note": "Orders below 2*10^10 for the simplex orthonormal bases (beyond that equispaced nodes enter the tolerance strips of rstoab/rsttoabc); C65_lattice has no bound. Differentiation targets off the tolerance strips, as C27. Exact arithmetic."
  },
  {
   "property": "C66",
   "status": "proved",
   "theorems": [
    "C66_interpolation",
    "C66_bases",
    "C66_operators",
    "C66_edge_clustered",
    "C66_edge_operators",
    "C66_triangle_interior",
    "C66_gauss_tensor",
    "C66_lobatto_tensor",
    "C66_refused"
   ],
   "note": "Triangle and tetrahedron warp-and-blend nodes: unisolvence for orders up to 4; for every order on the triangle reduced to the interior nodes (C66_triangle_interior). One-dimensional points are eigenvalues: eigh is assumed to return a diagonalisation, as in C36 and C37. Exact arithmetic."
  },
  {
   "property": "C67",
   "status": "proved",
   "theorems": [
    "C67_gradients",
    "C67_exact",
    "C67_degree",
    "C67_own_nodes",
    "C67_equispaced",
    "C67_edge_clustered"
   ],
   "note": "Good points: all points except those strictly inside a tolerance strip of the collapsed-coordinate code (C22). Exact arithmetic."
  },
  {
   "property": "C68",
   "status": "proved",
   "theorems": [
    "C68_scaling",
    "C68_divergence",
    "C68_flux",
    "C68_by_parts",
    "C68_closed"
   ],
   "note": "Polynomial fields of every degree; smooth non-polynomial fields are not covered. Face maps, normals and the face tables are those of ModelFaces (C09, C10)."
  },
  {
   "property": "C69",
   "status": "proved",
   "theorems": [
    "C69_quad_mass",
    "C69_quad_mass_face",
    "C69_face_mass",
    "C69_modal",
    "C69_modal_face",
    "C69_face_pairing",
    "C69_face_succeeds",
    "C69_refused",
    "C69_volume_mismatch"
   ],
   "note": "Rules with as many weights as nodes; face functions with node arrays that have a dimension axis (flat ones are refused, C69_refused). The deprecated nodal_mass_matrix_for_face raises LinAlgError, its replacement ValueError, on a wrong number of volume nodes (C69_volume_mismatch). Warnings are not modelled."
  },
  {
   "property": "C70",
   "status": "proved",
   "theorems": [
    "C70_rules",
    "C70_face_mass",
    "C70_summation_by_parts"
   ],
   "note": "Nodes that determine the space and are not strictly inside a tolerance strip of the simplex basis functions (a hypothesis, satisfied by the example); face rules that integrate products of face polynomials exactly, e.g. rules of twice the degree (C70_rules). Exact arithmetic."
  },
  {
   "property": "C71",
   "status": "proved",
   "theorems": [
    "C71_refused_witherden_vincent",
    "C71_available_witherden_vincent",
    "C71_refused_jaskowiec_sukumar",
    "C71_available_jaskowiec_sukumar",
    "C71_refused_vioreanu_rokhlin",
    "C71_jaskowiec_sukumar",
    "C71_vioreanu_rokhlin"
   ],
   "note": "Vioreanu-Rokhlin refusals for tables whose points have the right number of coordinates; weights that sum to zero excluded. WitherdenVincentQuadrature uses the row as it is."
  },
  {
   "property": "C72",
   "status": "proved",
   "theorems": [
    "C72_tabulated",
    "C72_keys_distinct",
    "C72_rectangular",
    "C72_witherden_vincent",
    "C72_jaskowiec_sukumar",
    "C72_vioreanu_rokhlin",
    "C72_xiao_gimbutas"
   ],
   "note": "The decimals are exact rationals in the model (Python rounds them to doubles). Exactness holds up to 5e-14 times the sum of the moduli of the coefficients; the tables are rounded, so it cannot hold exactly."
  },
  {
   "property": "C73",
   "status": "proved",
   "theorems": [
    "C73_volume",
    "C73_simplex",
    "C73_space",
    "C73_covers",
    "C73_exact_without_tables",
    "C73_defined"
   ],
   "note": "Exact arithmetic; the decimals of the tables are exact rationals. An eigensolver that is right for the Legendre matrices is assumed where Gauss rules are used (C37_decomposition_exists). A rule for a product of different orders may be refused (C34_anisotropic_refuted), so C73_space is about the rule that is returned."
  },
  {
   "property": "C74",
   "status": "proved",
   "theorems": [
    "C74_eq",
    "C74_square_refuted",
    "C74_copy_simplex",
    "C74_copy_hypercube",
    "C74_copy_shape",
    "C74_copy_pn",
    "C74_copy_space_for_shape",
    "C74_copy_qn_refuted"
   ],
   "note": "The round trip is refuted for TensorProductShape (C74_copy_shape) and for QN (C74_copy_qn_refuted). Python's generated __eq__ and object.__reduce_ex__ are modelled from their documentation; stray attributes set on a returned base are left out."
  },
  {
   "property": "C75",
   "status": "proved",
   "theorems": [
    "C75_lebesgue",
    "C75_lower_bound",
    "C75_permutation",
    "C75_equispaced",
    "C75_edge_clustered",
    "C75_estimator"
   ],
   "note": "Exact arithmetic. Nodes and sample points must not lie strictly inside the tolerance strips of the bases (C15, C65); equispaced nodes and the samples satisfy that for 30 n < 2e10."
  },
  {
   "property": "C76",
   "status": "proved",
   "theorems": [
    "C76_coordinate",
    "C76_distinct",
    "C76_power_of_two",
    "C76_space",
    "C76_simplex",
    "C76_vertices",
    "C76_inside_refuted",
    "C76_operators",
    "C76_derivatives",
    "C76_refused"
   ],
   "note": "Rounding to nearest even with gradual underflow (Flocq); overflow does not occur. That the nodes lie in the simplex is refuted (C76_inside_refuted) with a bound in C76_simplex. C76_operators: and C76_derivatives: rounded nodes, then exact arithmetic; orders up to 10^10 (above, nodes enter the tolerance strips of the code), orthonormal bases in factor dimensions 1 to 3."
  },
  {
   "property": "C77",
   "status": "proved",
   "theorems": [
    "C77_error",
    "C77_call",
    "C77_defined",
    "C77_exact",
    "C77_nonneg",
    "C77_order",
    "C77_total"
   ],
   "note": "Rounding to nearest even with gradual underflow (Flocq); overflow and NaN are not modelled. BLAS is a relation that allows every order of summation, partial sums started at zero, and fused multiply-add."
  },
  {
   "property": "C78",
   "status": "proved",
   "theorems": [
    "C78_refused",
    "C78_error",
    "C78_order",
    "C78_right_refuted",
    "C78_right_exact"
   ],
   "note": "That 1 is mapped to the right end point is refuted (C78_right_refuted). Overflow is not modelled."
  },
  {
   "property": "C79",
   "status": "proved",
   "theorems": [
    "C79_product",
    "C79_positive",
    "C79_positive_refuted",
    "C79_powers_of_two",
    "C79_rule",
    "C79_defined",
    "C79_weights",
    "C79_call"
   ],
   "note": "np.prod is a relation that allows every order and grouping. That positive weights stay positive is refuted without the bounds on the weights (C79_positive_refuted: underflow). Overflow is not modelled; C79_positive bounds the products."
  },
  {
   "property": "C80",
   "status": "proved",
   "theorems": [
    "C80_between",
    "C80_lebesgue_one",
    "C80_equispaced"
   ],
   "note": "Exact arithmetic."
  },
  {
   "property": "C81",
   "status": "proved",
   "theorems": [
    "C81_scalar",
    "C81_tuple",
    "C81_gradients",
    "C81_mixed_refuted",
    "C81_mixed_errors"
   ],
   "note": "Exact arithmetic. That a list mixing both kinds is refused is itself refuted (C81_mixed_refuted); the cases that raise are in C81_mixed_errors."
  }
 ]
}