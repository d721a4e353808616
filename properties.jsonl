{"id": "C01", "title": "Node tuples of a simplex space are a complete, duplicate-free index set", "statement": "node_tuples_for_space(PN(d, n)) lists every tuple of d nonnegative integers whose entries sum to at most n, lists none of them twice, lists nothing else, and its length equals PN(d, n).space_dim = binomial(n+d, d).", "quantifier": "for every spatial dimension d >= 0 and every order n >= 0", "why_tests_cant": "Tests compare lengths for a handful of (d, n); they cannot show completeness and distinctness for all dimensions and orders.", "anchors": ["modepy/nodes.py:_node_tuples_for_pn", "modepy/spaces.py:PN.space_dim", "pytools.generate_nonnegative_integer_tuples_summing_to_at_most"]}
{"id": "C02", "title": "Tensor-product node tuples: complete, distinct, first component varies fastest", "statement": "node_tuples_for_space(TensorProductSpace(bases)) contains exactly one concatenated tuple for every choice of one node tuple per base space, has length space_dim = product of the base space_dims, and the entry at position k is the concatenation of the base tuples at the mixed-radix digits of k with the first base varying fastest.", "quantifier": "for every list of base spaces, of any number, dimension and order", "why_tests_cant": "The ordering law is a statement about all positions of arbitrarily long lists; tests look at a few two- or three-axis cases.", "anchors": ["modepy/nodes.py:_node_tuples_for_tp", "modepy/spaces.py:TensorProductSpace"]}
{"id": "C03", "title": "tensor_product_nodes index law", "statement": "Column k of tensor_product_nodes(nodesets) is the concatenation of one column from each nodeset, the column indices being the mixed-radix digits of k (first nodeset fastest); the result has sum-of-dims rows and product-of-counts columns, so every combination occurs exactly once; a one-dimensional nodeset counts as one row.", "quantifier": "for every list of nodesets of arbitrary (possibly zero) dimension and any number of nodes", "why_tests_cant": "Index laws of reshaped outer products hold for all shapes only by proof; tests sample a few sizes.", "anchors": ["modepy/nodes.py:tensor_product_nodes"]}
{"id": "C04", "title": "reshape/unreshape for tensor-product spaces are inverse and follow the node order", "statement": "reshape_array_for_tensor_product_space splits the chosen axis so that entry (.., i_1, .., i_m, ..) is the input's entry at flat index i_1 + n_1*(i_2 + n_2*(...)); unreshape_array_for_tensor_product_space undoes it exactly; a length mismatch on the axis raises ValueError.", "quantifier": "for every tensor-product space, every array rank and shape, and every (positive or negative) axis", "why_tests_cant": "Axis arithmetic and Fortran-order flattening depend on unbounded ranks and shapes.", "anchors": ["modepy/tools.py:reshape_array_for_tensor_product_space", "modepy/tools.py:unreshape_array_for_tensor_product_space"]}
{"id": "C05", "title": "Nodes, node tuples and modes of a tensor-product element share one ordering", "statement": "For a tensor-product space and shape, the k-th column of equispaced nodes, the k-th node tuple, the k-th mode id and the k-th basis function all refer to the same mixed-radix multi-index, and reshaping nodal or modal data with reshape_array_for_tensor_product_space puts that entry at that multi-index.", "quantifier": "for every tensor-product space and every position k", "why_tests_cant": "It is an agreement between four independently written enumeration loops, at every position, for every number of axes.", "anchors": ["modepy/nodes.py:_node_tuples_for_tp", "modepy/nodes.py:tensor_product_nodes", "modepy/modes.py:TensorProductBasis", "modepy/tools.py:reshape_array_for_tensor_product_space"]}
{"id": "C06", "title": "Mode ids of a basis are distinct and match its functions", "statement": "For every basis returned by orthonormal_basis_for_space / monomial_basis_for_space (simplex or tensor product, including nested products), mode_ids has no repetition, functions and gradients have the same length as mode_ids, and that length is space.space_dim.", "quantifier": "for every supported space, of any dimension, order and number of factors", "why_tests_cant": "Tests check lengths for dims 2-3 and a few orders only.", "anchors": ["modepy/modes.py:SimplexBasis.mode_ids", "modepy/modes.py:TensorProductBasis.mode_ids", "modepy/modes.py:TensorProductBasis.functions", "modepy/modes.py:TensorProductBasis.gradients"]}
{"id": "C07", "title": "Shape constructors: flattening, dimension, vertex and face counts", "statement": "TensorProductShape flattens nested products, collapses a single factor, has dim equal to the sum of factor dims, nvertices equal to the product, and unit_vertices_for_shape has exactly dim rows and nvertices columns; for products of segments with one further shape of dim >= 1, nfaces is the sum of the factors' nfaces. Unsupported products raise NotImplementedError.", "quantifier": "for every nesting of simplices, hypercubes and tensor products", "why_tests_cant": "Nesting depth and factor lists are unbounded.", "anchors": ["modepy/shapes.py:TensorProductShape", "modepy/shapes.py:Hypercube", "modepy/shapes.py:Simplex", "modepy/shapes.py:unit_vertices_for_shape"]}
{"id": "C08", "title": "Function-space constructors: flattening, dimensions and orders", "statement": "TensorProductSpace flattens nested products, spatial_dim is the sum and space_dim the product over factors; QN(d, n).space_dim = (n+1)^d; space_for_shape builds a space with spatial_dim equal to the shape's dim and the requested order(s) per factor, and raises ValueError when the number of orders does not match.", "quantifier": "for every nesting of spaces, every shape and order tuple", "why_tests_cant": "Nesting and lengths are unbounded.", "anchors": ["modepy/spaces.py:TensorProductSpace", "modepy/spaces.py:QN", "modepy/spaces.py:PN", "modepy/spaces.py:space_for_shape"]}
{"id": "C09", "title": "Faces: map_to_volume hits the advertised vertices and exactly covers the boundary", "statement": "For each face of a simplex or hypercube, map_to_volume is affine, sends the j-th unit vertex of the face shape to the volume vertex volume_vertex_indices[j], maps the reference face into the boundary of the volume element, and every boundary point is the image of a point of some face.", "quantifier": "for all faces of all shapes with a face table (dimensions 1 to 3) and for all real points", "why_tests_cant": "The statement is about all points of a continuum; tests evaluate finitely many.", "anchors": ["modepy/shapes.py:faces_for_shape", "modepy/shapes.py:_simplex_face_to_vol_map", "modepy/shapes.py:_hypercube_face_to_vol_map"]}
{"id": "C10", "title": "face_normal is the outward unit normal", "statement": "face_normal(face) is orthogonal to every difference of points of the mapped face, has length one when normalized, and points out of the element: every point of the volume element lies on the non-positive side.", "quantifier": "for all faces of simplices and hypercubes of dimension 1 to 3, and for all points of the element", "why_tests_cant": "'Outward' quantifies over all points of the element; tests check centroids with tolerance.", "anchors": ["modepy/shapes.py:face_normal"]}
{"id": "C11", "title": "submesh_for_shape of a simplex is a conforming, positively oriented tessellation", "statement": "For node tuples forming the full order-n lattice of a 1-, 2- or 3-simplex (in any order), every returned element refers to existing nodes, is positively oriented with the volume of a 1/n-scaled simplex, there are n^dim of them, every point of the simplex lies in an element, and two different elements never share an interior point.", "quantifier": "for every order n, every ordering of the node tuples and every real point", "why_tests_cant": "Covering and non-overlap of an unbounded number of elements at all real points is out of reach of tests.", "anchors": ["modepy/shapes.py:submesh_for_simplex"]}
{"id": "C12", "title": "submesh_for_shape of a hypercube tessellates it in vertex order", "statement": "For the node tuples of QN(d, n), submesh_for_shape returns n^d elements; each lists the node indices of the 2^d corners of one lattice cell in the same order as unit_vertices_for_shape lists the hypercube's vertices; every cell occurs exactly once.", "quantifier": "for every dimension d >= 1 and order n >= 1", "why_tests_cant": "Dimension and order are unbounded; the test only counts elements for order 3.", "anchors": ["modepy/shapes.py:submesh_for_hypercube"]}
{"id": "C13", "title": "Equispaced nodes lie in the element, are distinct and include its vertices", "statement": "equidistant_nodes(d, n) / equispaced_nodes_for_space return space_dim points inside the closed reference simplex, pairwise distinct, with the node for tuple t at barycentric coordinates t/n; for n >= 1 the vertices of the simplex occur; order 0 returns the centroid-like node documented by the code.", "quantifier": "for every dimension and order", "why_tests_cant": "Tests check a tolerance-based inclusion for some orders.", "anchors": ["modepy/nodes.py:equidistant_nodes", "modepy/nodes.py:_equispaced_nodes_for_pn"]}
{"id": "C14", "title": "random_nodes_for_shape only returns points of the shape", "statement": "Whatever the random generator produces, if random_nodes_for_shape returns, it returns exactly nnodes columns, each one inside the (closed) reference simplex, hypercube or tensor-product shape; each accepted point is one the generator produced, in order.", "quantifier": "for all generator outputs (sequences of uniform draws in [-1,1]), all dimensions and node counts", "why_tests_cant": "Quantifies over all random streams; tests use one seed.", "anchors": ["modepy/nodes.py:_random_nodes_for_simplex", "modepy/nodes.py:_random_nodes_for_tp"]}
{"id": "C15", "title": "Barycentric, unit and equilateral coordinates agree and invert each other", "statement": "unit_to_barycentric and barycentric_to_unit are mutually inverse on points whose coordinates sum to one, vertices map to unit vectors, and EQUILATERAL_TO_UNIT_MAP composed with barycentric_to_equilateral equals barycentric_to_unit for dimensions 1 to 3; AffineMap.inverse composed with the map is the identity in both orders.", "quantifier": "for all points and (for the first part) all dimensions; for all invertible affine maps", "why_tests_cant": "Quantifies over all real points and all invertible matrices.", "anchors": ["modepy/tools.py:barycentric_to_unit", "modepy/tools.py:unit_to_barycentric", "modepy/tools.py:barycentric_to_equilateral", "modepy/tools.py:AffineMap"]}
{"id": "C16", "title": "Monomial integrals are the true integrals", "statement": "Monomial(e).simplex_integral() is the integral of the monomial over the bi-unit reference simplex and Monomial(e).hypercube_integral() is the integral over the unit cube [0,1]^d (with factor 1); Monomial.diff is the partial derivative.", "quantifier": "for all exponent tuples in all dimensions", "why_tests_cant": "Exponents and dimension are unbounded, and integrals are exact reals.", "anchors": ["modepy/tools.py:Monomial"]}
{"id": "C17", "title": "Jacobi polynomials are orthonormal", "statement": "The integral over [-1,1] of jacobi(a,b,m,x)*jacobi(a,b,n,x)*(1-x)^a*(1+x)^b is 1 if m = n and 0 otherwise.", "quantifier": "for all orders m, n and all nonnegative integer parameters a, b (the ones the simplex bases use)", "why_tests_cant": "Infinite family of exact integral identities; tests check n < 10 with tolerance.", "anchors": ["modepy/modes.py:jacobi"]}
{"id": "C18", "title": "grad_jacobi is the derivative of jacobi", "statement": "For every real x, grad_jacobi(a,b,n,.) at x is the derivative of jacobi(a,b,n,.) at x.", "quantifier": "for all orders n, all real a, b > -1 and all real x", "why_tests_cant": "Finite differences on sample points cannot establish a derivative at all points, parameters and orders.", "anchors": ["modepy/modes.py:grad_jacobi", "modepy/modes.py:jacobi"]}
{"id": "C19", "title": "scaled_jacobi has the conventional end-point values", "statement": "scaled_jacobi(a,b,n,1) = binom(n+a,n) and scaled_jacobi(a,b,n,-1) = (-1)^n binom(n+b,n).", "quantifier": "for all n and all real a, b > -1 (outside the tolerance window around a+b = -1, and on the line itself)", "why_tests_cant": "Tests stop at n = 9 and a few (a,b).", "anchors": ["modepy/modes.py:scaled_jacobi", "modepy/modes.py:binom"]}
{"id": "C20", "title": "The triangle basis is orthonormal", "statement": "The integral over the reference triangle of pkdo_2d((i,j),.)*pkdo_2d((k,l),.) is 1 if (i,j) = (k,l), else 0.", "quantifier": "for all i, j, k, l", "why_tests_cant": "Infinite family of exact double integrals.", "anchors": ["modepy/modes.py:pkdo_2d", "modepy/modes.py:_rstoab"]}
{"id": "C21", "title": "The tetrahedron basis is orthonormal", "statement": "The integral over the reference tetrahedron of pkdo_3d((i,j,k),.)*pkdo_3d((l,m,n),.) is 1 if the index triples agree, else 0.", "quantifier": "for all index triples", "why_tests_cant": "Infinite family of exact triple integrals.", "anchors": ["modepy/modes.py:pkdo_3d", "modepy/modes.py:_rsttoabc"]}
{"id": "C22", "title": "Gradients of the simplex bases are the true partial derivatives", "statement": "grad_pkdo_2d / grad_pkdo_3d return the partial derivatives of pkdo_2d / pkdo_3d at every point outside the tolerance strips around the collapsed vertex/edge, and the limit values at the collapsed vertex itself.", "quantifier": "for all mode indices and all real points outside the strips", "why_tests_cant": "Finite differences at random points with tolerance cannot settle all modes and points, nor the collapsed vertex.", "anchors": ["modepy/modes.py:grad_pkdo_2d", "modepy/modes.py:grad_pkdo_3d"]}
{"id": "C23", "title": "Monomial basis gradients are the true partial derivatives", "statement": "grad_monomial(order, x) component j, and diff_monomial(order, j, x), equal the partial derivative of monomial(order, x) with respect to coordinate j; a dimension mismatch is an assertion error.", "quantifier": "for all exponent tuples, dimensions, axes and points", "why_tests_cant": "Unbounded dimension and exponents.", "anchors": ["modepy/modes.py:monomial", "modepy/modes.py:grad_monomial", "modepy/modes.py:diff_monomial"]}
{"id": "C24", "title": "Tensor-product basis functions, gradients and derivatives follow the product rule", "statement": "The k-th function of a TensorProductBasis is the product of the factor functions selected by the k-th index tuple applied to the matching coordinate slices; gradients()[k][j] and derivatives(j)[k] agree with each other and are the partial derivative of functions[k] in coordinate j.", "quantifier": "for any number of factor bases of any dimension, all modes, axes and points", "why_tests_cant": "Number of factors and dimensions are unbounded.", "anchors": ["modepy/modes.py:TensorProductBasis", "modepy/modes.py:_TensorProductBasisFunction", "modepy/modes.py:_TensorProductGradientBasisFunction"]}
{"id": "C25", "title": "Tensor products of orthonormal bases are orthonormal", "statement": "If each factor basis is orthonormal under its (exact) integration functional then the tensor-product basis is orthonormal under the product functional; in particular the hypercube basis is orthonormal on [-1,1]^d for every d.", "quantifier": "for all dimensions and orders", "why_tests_cant": "Unbounded dimension and order.", "anchors": ["modepy/modes.py:TensorProductBasis", "modepy/modes.py:_orthonormal_basis_for_tp"]}
{"id": "C26", "title": "Resampling is exact on the span of the basis", "statement": "resampling_matrix(basis, new, old) @ f(old) = f(new) for every linear combination f of the basis functions; resampling to the same nodes is the identity; composing resamplings through a third unisolvent node set equals direct resampling; non-square use without least_squares_ok is an error, and the least-squares variant is exact on the span too.", "quantifier": "for all bases, node sets, numbers of nodes and coefficient vectors for which the old Vandermonde matrix is invertible (or of full column rank)", "why_tests_cant": "Quantifies over all functions of a space and all node sets.", "anchors": ["modepy/matrices.py:resampling_matrix", "modepy/matrices.py:vandermonde"]}
{"id": "C27", "title": "Differentiation matrices are exact on the span of the basis", "statement": "differentiation_matrices(basis, gradients, nodes)[j] @ f(nodes) equals the j-th partial derivative of f at from_nodes/nodes for every linear combination f; in one dimension a single matrix is returned.", "quantifier": "for all bases with correct gradients and all unisolvent node sets", "why_tests_cant": "Tests use sin/cos with 1e-4 tolerance.", "anchors": ["modepy/matrices.py:differentiation_matrices", "modepy/matrices.py:multi_vandermonde"]}
{"id": "C28", "title": "Mass matrix and inverse mass matrix", "statement": "mass_matrix(basis, nodes) is the Gram matrix of the Lagrange functions of the nodes under the functional for which the basis is orthonormal: u^T M v = <u, v> for nodal values of functions in the span; inverse_mass_matrix is its two-sided inverse, symmetric; a basis that is not orthonormal with weight 1 raises NotImplementedError.", "quantifier": "for all orthonormal bases and unisolvent node sets", "why_tests_cant": "Quantifies over all function pairs of the space.", "anchors": ["modepy/matrices.py:mass_matrix", "modepy/matrices.py:inverse_mass_matrix"]}
{"id": "C29", "title": "Quadrature-based operator matrices compute the advertised integrals", "statement": "nodal_quadrature_test_matrix @ u(quad nodes) and nodal_quadrature_bilinear_form_matrix @ u(nodes) give, for every test function, the quadrature of test*u: u^T-pairing with nodal values of a test-space function equals the quadrature rule applied to the product; with an exact rule and an orthonormal basis the bilinear form matrix equals mass_matrix.", "quantifier": "for all bases, node sets and quadrature rules", "why_tests_cant": "Quantifies over all rules and functions.", "anchors": ["modepy/matrices.py:nodal_quadrature_test_matrix", "modepy/matrices.py:nodal_quadrature_bilinear_form_matrix"]}
{"id": "C30", "title": "diff_matrix_permutation exchanges reference axes", "statement": "diff_matrix_permutation(node_tuples, k) is a permutation of the node indices, an involution, sends a node tuple to the tuple with entries 0 and k exchanged, and diff_matrices[k] = diff_matrices[0][perm][:, perm] for node sets and spaces symmetric under that exchange.", "quantifier": "for all symmetric node-tuple lists, dimensions and axes", "why_tests_cant": "Order and dimension are unbounded; the test covers order 5.", "anchors": ["modepy/matrices.py:diff_matrix_permutation"]}
{"id": "C31", "title": "Lebesgue constants bound interpolation and are at least one", "statement": "The value returned by estimate_lebesgue_constant is at least 1 whenever constants are in the span, and at every sample point the interpolant of nodal data is bounded by it times the largest nodal value.", "quantifier": "for all unisolvent node sets and nodal data", "why_tests_cant": "Quantifies over all data and node sets.", "anchors": ["modepy/tools.py:estimate_lebesgue_constant", "modepy/tools.py:_evaluate_lebesgue_function"]}
{"id": "C32", "title": "Transformed1DQuadrature keeps the exactness degree", "statement": "If a rule on [-1,1] integrates polynomials up to degree N exactly then Transformed1DQuadrature(rule, a, b) integrates polynomials up to degree N exactly over [a, b]; exact_to is inherited; a >= b raises ValueError.", "quantifier": "for all rules, degrees and intervals", "why_tests_cant": "All polynomials, all intervals.", "anchors": ["modepy/quadrature/__init__.py:Transformed1DQuadrature"]}
{"id": "C33", "title": "Tensor-product quadrature is exact to its advertised degree", "statement": "TensorProductQuadrature(rules) applied to a product of factor functions is the product of the factor rules; it integrates every polynomial of total degree <= min(exact_to) exactly on the product domain; exact_to is that minimum, unset if any factor's is unset and infinite for no factors.", "quantifier": "for all lists of rules", "why_tests_cant": "All rules, dimensions and polynomials.", "anchors": ["modepy/quadrature/__init__.py:TensorProductQuadrature", "modepy/quadrature/__init__.py:Quadrature"]}
{"id": "C34", "title": "quadrature_for_space returns a rule exact enough for the space", "statement": "For PN spaces of any order and dimension quadrature_for_space returns a rule with exact_to >= order, or fails with NotImplementedError/ValueError for mismatched shapes; for tensor-product spaces the returned rule satisfies exact_to >= each factor order.", "quantifier": "for all orders and dimensions, whatever rule tables are available", "why_tests_cant": "Orders and dimensions are unbounded and the fallback logic depends on availability.", "anchors": ["modepy/quadrature/__init__.py:quadrature_for_space", "modepy/quadrature/grundmann_moeller.py:GrundmannMoellerSimplexQuadrature"]}
{"id": "C35", "title": "Grundmann-Moeller rules are exact to degree 2s+1 in every dimension", "statement": "GrundmannMoellerSimplexQuadrature(s, d) integrates every polynomial of total degree at most 2s+1 exactly over the reference simplex, its nodes lie in the simplex and exact_to = 2s+1.", "quantifier": "for every s >= 0 and dimension d >= 1", "why_tests_cant": "Tests stop at s = 2, d = 3.", "anchors": ["modepy/quadrature/grundmann_moeller.py:GrundmannMoellerSimplexQuadrature"]}
{"id": "C36", "title": "Fraction helpers of the Grundmann-Moeller rule", "statement": "The extended Euclid helper returns (p, a, b) with p = a*q + b*r and |p| = gcd(q, r); simplifying a fraction preserves its value and leaves a coprime pair, so equal points always merge to one quadrature node.", "quantifier": "for all integers (nonzero denominators)", "why_tests_cant": "All integers.", "anchors": ["modepy/quadrature/grundmann_moeller.py:_extended_euclidean", "modepy/quadrature/grundmann_moeller.py:_simplify_fraction"]}
{"id": "C37", "title": "Jacobi-Gauss rules are exact to degree 2N+1", "statement": "The rule built by JacobiGaussQuadrature(a,b,N) from an exact eigendecomposition has N+1 nodes and integrates all polynomials of degree <= 2N+1 against (1-x)^a(1+x)^b exactly, with positive weights.", "quantifier": "for all N and all nonnegative integer a, b; for every orthonormal eigendecomposition the linear-algebra routine may return", "why_tests_cant": "All N and polynomials.", "anchors": ["modepy/quadrature/jacobi_gauss.py:JacobiGaussQuadrature"]}
{"id": "C38", "title": "Gauss-Lobatto rules are exact to degree 2N-1", "statement": "LegendreGaussLobattoQuadrature(N) contains the end points and integrates polynomials of degree <= 2N-1 exactly; JacobiGaussLobattoQuadrature(a,b,N) integrates them against the Jacobi weight.", "quantifier": "for all N >= 1 (and all a, b for the second part)", "why_tests_cant": "All N; the tests only exercise a = b = 0.", "anchors": ["modepy/quadrature/jacobi_gauss.py:JacobiGaussLobattoQuadrature", "modepy/quadrature/jacobi_gauss.py:jacobi_gauss_lobatto_nodes"]}
{"id": "C39", "title": "Clenshaw-Curtis and Fejer rules are interpolatory", "statement": "ClenshawCurtisQuadrature(N) integrates polynomials up to degree N exactly on [-1,1]; FejerQuadrature(N, kind=1) up to degree N-1, FejerQuadrature(N, kind=2) up to degree N-2; invalid N or kind raises ValueError.", "quantifier": "for all N", "why_tests_cant": "All N; tests stop at 9.", "anchors": ["modepy/quadrature/clenshaw_curtis.py:_make_clenshaw_curtis_nodes_and_weights", "modepy/quadrature/clenshaw_curtis.py:_make_fejer1_nodes_and_weights", "modepy/quadrature/clenshaw_curtis.py:_make_fejer2_nodes_and_weights"]}
{"id": "C40", "title": "Transplanted quadrature is the change of variables it claims to be", "statement": "map_identity, map_sausage and map_kosloff_tal_ezer fix -1 and 1, are odd and increasing on [-1,1], and their second output is the derivative of the first; transplanted_1d_quadrature integrates f exactly whenever the base rule integrates f(g(s))g'(s) exactly, in particular polynomials up to the degree that the sausage map's degree allows; invalid degrees/parameters raise ValueError.", "quantifier": "for all odd degrees, parameters, base rules and points", "why_tests_cant": "All degrees, parameters and points.", "anchors": ["modepy/quadrature/transplanted.py:map_sausage", "modepy/quadrature/transplanted.py:map_kosloff_tal_ezer", "modepy/quadrature/transplanted.py:transplanted_1d_quadrature"]}
{"id": "C41", "title": "Kronrod panel evaluation agrees with the assembled Kronrod rule", "statement": "For every n, the value quadgk computes on one panel (a,b) equals the affine image of the rule assembled by make_kronrod_quadrature/KronrodQuadrature, every node is evaluated exactly once (2n+1 evaluations) and the embedded Gauss value uses exactly the Gauss nodes, for odd and even n.", "quantifier": "for all n >= 1, all rule data, integrands and panels", "why_tests_cant": "Index parity logic over unbounded n.", "anchors": ["modepy/quadrature/kronrod.py:_evalrule", "modepy/quadrature/kronrod.py:make_kronrod_quadrature"]}
{"id": "C42", "title": "quadgk's adaptive loop keeps a partition of the interval and stops correctly", "statement": "At every step the panels partition the integration interval, the running integral and error are the sums over the panels, the panel that is split is one with the largest error, the evaluation count is exact, and the loop stops precisely when the tolerance is met or the evaluation budget is used up, after boundedly many steps.", "quantifier": "for all integrands, rules, breakpoints, tolerances and budgets, at every step", "why_tests_cant": "Invariant over all executions.", "anchors": ["modepy/quadrature/kronrod.py:_do_quadgk", "modepy/quadrature/kronrod.py:quadgk"]}
{"id": "C43", "title": "quadgk's handling of infinite intervals is the right change of variables", "statement": "For integrals over (-inf, inf), (a, inf) and (-inf, a) the transformed integrand on the finite interval is the original one composed with an increasing bijection times its derivative, so any finite panel integral equals the corresponding original integral; reversed limits negate the result.", "quantifier": "for all integrands, break points and panels", "why_tests_cant": "All integrands and intervals.", "anchors": ["modepy/quadrature/kronrod.py:quadgk", "modepy/quadrature/kronrod.py:_transform_both_inf", "modepy/quadrature/kronrod.py:_transform_semi_inf_pos"]}
{"id": "C44", "title": "The infinity sentinel orders above all finite degrees", "statement": "Comparing quadrature degrees behaves like a total order in which the sentinel is the top element: trichotomy, antisymmetry and transitivity hold among finite numbers and the sentinel, min over a list returns a least element, and adding a finite number to the sentinel gives the sentinel.", "quantifier": "for all finite numbers and lists of degrees", "why_tests_cant": "All lists.", "anchors": ["modepy/quadrature/__init__.py:_Inf", "modepy/quadrature/__init__.py:isinf"]}
{"id": "C45", "title": "skyline_pessimize returns the least non-increasing majorant", "statement": "For every row with at least two modes the result is non-increasing, at least the input, and the smallest such sequence up to the last entry (which is raised to the maximum of the last two); rows are treated independently; one-mode rows raise IndexError.", "quantifier": "for all arrays", "why_tests_cant": "All arrays.", "anchors": ["modepy/modal_decay.py:skyline_pessimize"]}
{"id": "C46", "title": "Interpolation-error estimator returns the tail modal coefficients", "statement": "interp_error_coefficient_estimator_matrix(nodes, k, basis) @ f(nodes) yields exactly the coefficients, in order, of those modes whose degree exceeds max_degree - k; degree_vector gives total degree for simplex modes and maximal factor degree for tensor products.", "quantifier": "for all bases, node sets, k and functions in the span", "why_tests_cant": "All functions and bases.", "anchors": ["modepy/modal_decay.py:interp_error_coefficient_estimator_matrix", "modepy/modal_decay.py:degree_vector"]}
{"id": "C47", "title": "linearly_combine evaluates to the linear combination", "statement": "Whenever linearly_combine(coefficients, functions) returns, evaluating the result at any points equals the coefficient-weighted sum of the functions' values, whether or not the inputs were flattened.", "quantifier": "for all coefficient vectors, function lists and points", "why_tests_cant": "All inputs; flattening depends on identities and lengths.", "anchors": ["modepy/quadrature/construction.py:linearly_combine", "modepy/quadrature/construction.py:LinearCombinationIntegrand"]}
{"id": "C48", "title": "orthogonalize_basis yields a basis orthonormal under the given quadrature", "statement": "If the quadrature Gram matrix is positive definite, the functions returned by orthogonalize_basis are orthonormal under that quadrature and span the same space.", "quantifier": "for all function families and rules", "why_tests_cant": "All families and rules.", "anchors": ["modepy/quadrature/construction.py:orthogonalize_basis", "modepy/quadrature/construction.py:_mass_matrix"]}
{"id": "C49", "title": "Quadrature residual and its Jacobian", "statement": "quad_residual_and_jacobian's residual vanishes exactly when the rule integrates all integrands to the reference integrals, and its Jacobian blocks are the partial derivatives of the residual with respect to weights and node coordinates, in the order in which quad_gauss_newton_increment splits its solution.", "quantifier": "for all integrands with correct derivatives, nodes and weights", "why_tests_cant": "Derivative identities at all points.", "anchors": ["modepy/quadrature/construction.py:quad_residual_and_jacobian", "modepy/quadrature/construction.py:quad_gauss_newton_increment"]}
{"id": "C50", "title": "Undetermined-coefficient weights reproduce the reference integrals", "statement": "find_weights_undetermined_coefficients returns weights whose rule integrates every integrand to its reference integral whenever the (square) system is solvable, and satisfies the normal equations when overdetermined.", "quantifier": "for all integrand families and node sets", "why_tests_cant": "All families.", "anchors": ["modepy/quadrature/construction.py:find_weights_undetermined_coefficients"]}
{"id": "C51", "title": "Warp-and-blend nodes are conforming: edges carry the 1D Gauss-Lobatto points", "statement": "warp_and_blend_nodes(2, n) keeps vertices at the vertices, keeps edge nodes on their edge, and places them at the n+1 one-dimensional Legendre-Gauss-Lobatto points, so neighbouring elements share face nodes.", "quantifier": "for all orders n >= 1 and every value of the blending parameter", "why_tests_cant": "All orders; the test checks symmetry of a few distributions with tolerance.", "anchors": ["modepy/nodes.py:warp_and_blend_nodes", "modepy/nodes.py:_2d_equilateral_shift", "modepy/nodes.py:warp_factor"]}
{"id": "C52", "title": "Symbolic basis expressions evaluate to the numerical basis", "statement": "The expression produced by symbolicize_function for a Jacobi, PKDO, monomial or tensor-product function or gradient, evaluated at any point, equals the numerical evaluation at that point.", "quantifier": "for all modes and points", "why_tests_cant": "All modes and points.", "anchors": ["modepy/modes.py:symbolicize_function", "modepy/modes.py:_where", "modepy/modes.py:_cse"]}
{"id": "C53", "title": "The zero-dimensional orthonormal basis is orthonormal", "statement": "On the zero-dimensional simplex the single orthonormal basis function squares to integral 1 under the zero-dimensional quadrature.", "quantifier": "for the only mode and point", "why_tests_cant": "No test evaluates the 0-d basis value; the claim is part of the orthonormality contract for all dimensions.", "anchors": ["modepy/modes.py:zerod_basis", "modepy/quadrature/__init__.py:ZeroDimensionalQuadrature"]}
{"id": "C54", "title": "Gaussian and Kronrod eigen-solver helpers compute what they claim", "statement": "The tridiagonal characteristic-polynomial recurrence returns the determinant of zI - H for the leading blocks and its derivative, and the eigenvector recurrence returns a vector annihilated by all but the last row of H - zI, with unit norm.", "quantifier": "for all sizes, matrices and evaluation points", "why_tests_cant": "All sizes.", "anchors": ["modepy/quadrature/kronrod.py:_eigpoly", "modepy/quadrature/kronrod.py:_eigvec1"]}
{"id": "C55", "title": "estimate_relative_expansion_residual stays in range", "statement": "Whenever the estimate is defined (not NaN) and the coefficients are non-zero it lies in [0, 1], and the fitted exponent/constant solve the least-squares normal equations of log-coefficients against log-degree.", "quantifier": "for all coefficient arrays", "why_tests_cant": "All arrays.", "anchors": ["modepy/modal_decay.py:estimate_relative_expansion_residual", "modepy/modal_decay.py:fit_modal_decay"]}
{"id": "C56", "title": "gauss returns the Gauss-Legendre rule", "statement": "gauss(n) for n >= 1 returns n strictly increasing nodes inside (-1, 1) and positive weights that integrate every polynomial of degree up to 2n-1 over [-1, 1] exactly; n < 1 raises ValueError.", "quantifier": "for all n and all polynomials of the stated degree", "why_tests_cant": "All n and all polynomials.", "anchors": ["modepy/quadrature/kronrod.py:gauss"]}
{"id": "C57", "title": "The Kronrod rule reaches its advertised exactness", "statement": "The rule built by make_kronrod_quadrature for order n integrates every polynomial of degree up to its exact_to = 3n+1 over [-1, 1] exactly and has positive weights, provided the coefficients that Laurie's algorithm adds are positive.", "quantifier": "for all n and all polynomials of the stated degree", "why_tests_cant": "All n and all polynomials.", "anchors": ["modepy/quadrature/kronrod.py:kronrod", "modepy/quadrature/kronrod.py:make_kronrod_quadrature"]}
{"id": "C58", "title": "quadgk is exact on polynomials", "statement": "On any finite break points quadgk of order n returns exactly the integral from the first to the last break point for every polynomial of degree up to 3n+1, whatever tolerances, evaluation limit and bisections.", "quantifier": "for all break points, tolerances, limits, orders and polynomials", "why_tests_cant": "All meshes, all polynomials.", "anchors": ["modepy/quadrature/kronrod.py:quadgk", "modepy/quadrature/kronrod.py:_do_quadgk"]}
{"id": "C59", "title": "The strip map is a valid transplant map on the open interval", "statement": "With ellipk/ellipj the complete elliptic integral and the Jacobi elliptic functions, map_strip on nodes inside (-1,1) returns g and g' where g is odd, strictly increasing, maps (-1,1) into (-1,1), tends to +-1 at the ends and g' is its derivative; the rule transplanted by it integrates a continuous f exactly when the base rule returns the improper integral of f(g(s))g'(s); end point or exterior nodes and rho <= 1 raise ValueError.", "quantifier": "for all rho > 1, parameters 0 < m < 1, continuous f and interior nodes", "why_tests_cant": "All parameters and points; limits at the end points.", "anchors": ["modepy/quadrature/transplanted.py:map_strip"]}
{"id": "C60", "title": "Warp-and-blend node sets have all symmetries of the simplex", "statement": "Permuting the barycentric coordinates of a node tuple permutes the barycentric coordinates of the node made from it; so the node sets of warp_and_blend_nodes(2, n) and (3, n) are mapped to themselves by every symmetry of the triangle and of the tetrahedron.", "quantifier": "for all orders n >= 1, every blending parameter, every permutation of the vertices", "why_tests_cant": "The tests look at a few orders with a tolerance.", "anchors": ["modepy/nodes.py:warp_and_blend_nodes_2d", "modepy/nodes.py:warp_and_blend_nodes_3d", "modepy/nodes.py:_2d_equilateral_shift"]}
{"id": "C61", "title": "Faces of the tetrahedral warp-and-blend nodes", "statement": "A node of warp_and_blend_nodes_3d whose tuple lies on a face stays on that face, and there is the node of the triangle construction for the remaining coordinates with the same blending parameter.", "quantifier": "for all orders n >= 1 and all four faces, every blending parameter", "why_tests_cant": "All orders; no test looks at the faces.", "anchors": ["modepy/nodes.py:warp_and_blend_nodes_3d"]}
{"id": "C62", "title": "The spectral-element diagonal mass matrix is exact for Gauss-Legendre nodes", "statement": "spectral_diag_nodal_mass_matrix of the tensor-product Gauss-Legendre rule with N+1 points per direction returns the exact mass matrix for functions of degree at most N per variable (off-diagonal entries of nodal functions vanish, the diagonal is the returned vector); for Gauss-Lobatto points it is exact when one function has one degree less, but not in general; anything but a product of one-dimensional rules raises ValueError.", "quantifier": "for all N, all dimensions and all functions of the space", "why_tests_cant": "All degrees, dimensions and functions.", "anchors": ["modepy/matrices.py:spectral_diag_nodal_mass_matrix", "modepy/quadrature/__init__.py:LegendreGaussTensorProductQuadrature"]}
{"id": "C63", "title": "The Gauss rule is embedded in the Kronrod rule", "statement": "The coefficients that Laurie's algorithm adds make the Gauss nodes eigenvalues of the Kronrod matrix: the nodes the code takes for Gauss nodes (every second one) are the zeros of the Legendre polynomial, the other nodes separate them, and the embedded rule has positive weights, agrees with gauss(n) and is exact to the degree 2n-1 it advertises.", "quantifier": "for all n >= 1 for which the algorithm returns positive coefficients", "why_tests_cant": "All n; tests compare a few rules with tabulated values.", "anchors": ["modepy/quadrature/kronrod.py:kronrod", "modepy/quadrature/kronrod.py:make_kronrod_quadrature"]}
{"id": "C64", "title": "quadgk does not refine for polynomials of degree up to 2n-1", "statement": "For a polynomial of degree at most 2n-1 the error estimate of quadgk is exactly zero, the result is the integral and the integrand is evaluated 2n+1 times per given interval, whatever the relative tolerance and budget.", "quantifier": "for all n, polynomials, break points, tolerances and budgets", "why_tests_cant": "All polynomials and meshes; the absence of refinement is not observable from the value.", "anchors": ["modepy/quadrature/kronrod.py:quadgk", "modepy/quadrature/kronrod.py:_evalrule"]}
{"id": "C65", "title": "Equispaced nodes are unisolvent and the operator matrices built on them exist and are exact", "statement": "For every function space and matching shape, the equispaced nodes determine the polynomials of the space: each of the monomial, orthonormal and default bases has an invertible Vandermonde matrix on them, every nodal data has exactly one interpolant, the orthonormal basis spans exactly the polynomials of the space, and resampling, differentiation and mass matrices on these nodes are computed without error and are exact for every polynomial of the space.", "quantifier": "for all spaces built from simplices and tensor products, all orders (below 2*10^10 where the tolerance strips of the simplex bases matter), all polynomials of the space, all target nodes", "why_tests_cant": "Invertibility of the Vandermonde matrix for every order and dimension and exactness for every polynomial are statements over infinite families; floating-point tests see only conditioning.", "anchors": ["modepy/nodes.py:equispaced_nodes_for_space", "modepy/modes.py:orthonormal_basis_for_space", "modepy/modes.py:monomial_basis_for_space", "modepy/modes.py:basis_for_space", "modepy/matrices.py:resampling_matrix", "modepy/matrices.py:differentiation_matrices", "modepy/matrices.py:mass_matrix"]}
{"id": "C66", "title": "Edge-clustered and Gauss tensor product nodes are unisolvent", "statement": "The edge-clustered nodes of a space (warp-and-blend on simplices up to dimension 3, equidistant above, tensor products of these) are distinct, as many as the dimension of the space, and determine its polynomials; so do the tensor products of Gauss and Gauss-Lobatto points. On any nodes that determine the space, interpolation is unique, the Vandermonde matrices of the three bases are invertible, and resampling, differentiation and mass matrices are computed without error and exact for the whole space.", "quantifier": "for all orders on the interval, in dimension 0 and from dimension 4 on (below 2*10^10), orders up to 4 on triangle and tetrahedron, all tensor products; for all orders on the triangle, unisolvence is equivalent to that of the interior nodes for degree n-3", "why_tests_cant": "Invertibility for every order, every product space and exactness for every polynomial are statements over infinite families; tests sample a few orders in floating point.", "anchors": ["modepy/nodes.py:edge_clustered_nodes_for_space", "modepy/nodes.py:legendre_gauss_tensor_product_nodes", "modepy/nodes.py:legendre_gauss_lobatto_tensor_product_nodes", "modepy/nodes.py:warp_and_blend_nodes", "modepy/matrices.py:resampling_matrix", "modepy/matrices.py:mass_matrix"]}
{"id": "C67", "title": "Differentiation matrices are exact at the nodes themselves; they commute and are nilpotent", "statement": "Gradients returned by the three bases are the partial derivatives of the polynomials they evaluate at every point that is not strictly inside a tolerance strip, in particular at the collapsed vertices and edges. Hence diff_matrices on nodes that determine the space (also with from_nodes=None) is exact for every polynomial of the space at every such point. On its own nodes the matrices have zero row sums, commute, and every product of more of them than the degree of the space vanishes.", "quantifier": "for all spaces (orders, simplex dimensions 1-3 for the orthonormal basis, any for the monomial one, all tensor products), all unisolvent node sets; equispaced nodes of every order and edge-clustered nodes as in C66 without further hypothesis", "why_tests_cant": "Tests compare derivatives of sampled functions at sampled nodes with finite differences, away from the collapsed vertices; exactness for all polynomials, the vertex limits and the operator identities hold for all orders and node sets only by proof.", "anchors": ["modepy/matrices.py:differentiation_matrices", "modepy/matrices.py:diff_matrices", "modepy/modes.py:grad_pkdo_2d", "modepy/modes.py:grad_pkdo_3d", "modepy/modes.py:_TensorProductGradientBasisFunction"]}
{"id": "C68", "title": "The divergence theorem holds for the faces, face maps and normals of every shape", "statement": "For every shape with faces and every polynomial F, the integral over the element of the partial derivative of F along axis k equals the sum over faces_for_shape of the k-th component of face_normal times the surface Jacobian of map_to_volume times the integral of F composed with map_to_volume over the face's reference shape. Hence the integral of a divergence is the flux through the faces, integration by parts holds, and the area-weighted normals sum to zero. The unnormalised normal is the unit normal times the surface Jacobian times 2^(d-1).", "quantifier": "for all shapes with faces (segment, triangle, tetrahedron, square, cube), all polynomials and vector fields of polynomials of any degree, all axes", "why_tests_cant": "Tests check a few functions with quadrature to a tolerance on selected elements; a missing face, a doubled face, a wrong orientation or scale for some degree is excluded for every polynomial only by proof.", "anchors": ["modepy/shapes.py:faces_for_shape", "modepy/shapes.py:face_normal", "modepy/shapes.py:_SimplexFace.map_to_volume", "modepy/shapes.py:_HypercubeFace.map_to_volume"]}
{"id": "C69", "title": "The deprecated quadrature mass matrices agree with their replacements", "statement": "nodal_quad_mass_matrix and nodal_quad_mass_matrix_for_face return exactly what nodal_quadrature_test_matrix returns (without a node map, and with the face map), errors included; nodal_mass_matrix_for_face returns what nodal_quadrature_bilinear_form_matrix returns with the face map. The modal matrices hold the weighted values and the quadratures of the products, and the nodal face mass matrix paired with nodal values is the rule on the face applied to the product of the interpolated functions. Wrong numbers of face nodes give ValueError; a wrong number of volume nodes gives LinAlgError in the deprecated function but ValueError in the replacement; flat node arrays are refused.", "quantifier": "for all rules with as many weights as nodes, all function lists, node sets and faces", "why_tests_cant": "Tests compare one or two orders and rules to a tolerance, and never the error paths; agreement for all rules, function lists and node sets (and the ways they refuse input) needs proof.", "anchors": ["modepy/matrices.py:modal_quad_mass_matrix", "modepy/matrices.py:nodal_quad_mass_matrix", "modepy/matrices.py:modal_mass_matrix_for_face", "modepy/matrices.py:nodal_mass_matrix_for_face", "modepy/matrices.py:modal_quad_mass_matrix_for_face", "modepy/matrices.py:nodal_quad_mass_matrix_for_face"]}
{"id": "C70", "title": "Face mass matrices are exact, and mass, differentiation and face matrices satisfy summation by parts", "statement": "For every shape with faces, every order and every node set that determines the polynomial space: nodal_mass_matrix_for_face gives the exact integral over the face of the trace of any polynomial of the element's space times any polynomial of the face's space; and for every direction k, M D_k + (M D_k)^T equals the sum over the faces of n_k times the surface Jacobian times the face mass matrix times the matrix that resamples volume nodal values at the face nodes. All matrices are computed without an error.", "quantifier": "for all shapes with faces (segment, triangle, tetrahedron, square, cube), all orders, all node sets determining the space on the element and on each face, all offered face bases, all face rules exact on products of face polynomials, all directions and all matrix entries", "why_tests_cant": "Tests check a few orders with one node family and floating-point tolerance; the identity ties together four matrix functions, the face tables, the normals and the quadrature for all orders and node choices.", "anchors": ["modepy/matrices.py:mass_matrix", "modepy/matrices.py:differentiation_matrices", "modepy/matrices.py:resampling_matrix", "modepy/matrices.py:nodal_mass_matrix_for_face", "modepy/shapes.py:faces_for_shape", "modepy/shapes.py:face_normal"]}
{"id": "C71", "title": "The table-driven quadrature classes carry a table's exactness over to the reference element", "statement": "WitherdenVincentQuadrature, JaskowiecSukumarQuadrature and VioreanuRokhlinSimplexQuadrature raise QuadratureRuleUnavailable exactly for unsupported dimensions and for orders missing from the table, and no other exception for well-shaped tables. A tetrahedron row in unit-simplex coordinates that averages the polynomials of degree <= n up to eps gives a rule on the reference tetrahedron exact for that degree up to (4/3) eps. A Vioreanu-Rokhlin row in equilateral coordinates does the same for the reference triangle and tetrahedron whatever the sum of its weights, and the weights of the rule add up to the volume of the element. Positive weights stay positive; with eps = 0 the rule is exact.", "quantifier": "for all tables, orders, dimensions, degrees and error bounds", "why_tests_cant": "Tests run the shipped rows on a few monomials with a tolerance; whether scaling and coordinate change are right for any row, and which inputs are refused, is a statement about all tables and orders.", "anchors": ["modepy/quadrature/witherden_vincent.py:WitherdenVincentQuadrature", "modepy/quadrature/jaskowiec_sukumar.py:JaskowiecSukumarQuadrature", "modepy/quadrature/vioreanu_rokhlin.py:VioreanuRokhlinSimplexQuadrature", "modepy/tools.py:EQUILATERAL_TO_UNIT_MAP"]}
{"id": "C72", "title": "Every shipped tabulated rule integrates every polynomial of its advertised degree", "statement": "For the tables in the repository (Xiao-Gimbutas triangle orders 1-50 and tetrahedron orders 1-15, Witherden-Vincent square odd orders 1-21 and cube odd orders 1-11, Jaskowiec-Sukumar tetrahedron orders 0-19, Vioreanu-Rokhlin triangle orders 0-20 and tetrahedron orders 0-10) the constructor succeeds exactly for these orders, all weights are positive, all nodes lie in the reference element, exact_to is the order (plus one for Jaskowiec-Sukumar, the listed degree, larger than the order, for Vioreanu-Rokhlin), and every polynomial of degree <= exact_to is integrated with an error of at most 5e-14 times the sum of the moduli of its coefficients in the coordinates (x+1)/2. Vioreanu-Rokhlin rules have as many nodes as there are monomials of degree <= order. The keys of the tables are distinct and the arrays rectangular.", "quantifier": "for all orders and dimensions (refused ones included), and for all polynomials of the advertised degree", "why_tests_cant": "Tests integrate sampled monomials in floating point with a loose tolerance; a bound for every polynomial of the degree, positivity and containment for every tabulated digit, and the refused orders, need an exact computation on the decimals.", "anchors": ["modepy/quadrature/xg_quad_data.py", "modepy/quadrature/witherden_vincent_quad_data.py", "modepy/quadrature/jaskowiec_sukumar_tet_data.py", "modepy/quadrature/vr_quad_data_tri.py", "modepy/quadrature/vr_quad_data_tet.py", "modepy/quadrature/xiao_gimbutas.py:XiaoGimbutasSimplexQuadrature"]}
{"id": "C73", "title": "quadrature_for_space with the shipped tables integrates the whole space", "statement": "With the tables in the repository, quadrature_for_space finds a rule for PN(d, n) on the d-simplex for every d and n, with exact_to >= n; it integrates every polynomial of degree <= n exactly if no table is used (d = 0, 1, d >= 4, or an order without a table entry) and up to 5e-14 times the sum of the moduli of its coefficients (in the coordinates (x+1)/2) otherwise. For tensor-product spaces every function of the space is integrated up to the sum of the moduli of its coefficients times the difference between the product of the factor volumes, enlarged by 5e-14 for triangles and tetrahedra, and the volume; so exactly if there are no triangles and tetrahedra among the factors. Products of spaces of equal order always have a rule.", "quantifier": "for all dimensions, orders, nested tensor products of spaces, and all functions of the space", "why_tests_cant": "Tests check sampled functions for small orders with a tolerance; the dispatch between tables, Gauss rules and the Grundmann-Moeller fallback has to be right for all orders and dimensions, and the error of a product of inexact rules has to be bounded for all functions of the space.", "anchors": ["modepy/quadrature/__init__.py:quadrature_for_space", "modepy/quadrature/__init__.py:_quadrature_for_pn", "modepy/quadrature/xg_quad_data.py"]}
{"id": "C74", "title": "Equality, copies and pickles of shapes and spaces", "statement": "Two shapes compare equal exactly if they have the same class and the same fields. copy.deepcopy and a pickle round trip (protocol >= 2) return an equal object for simplices, hypercubes and PN spaces, and for every space made by space_for_shape a space with the same dimensions and order. Expected for all shapes and spaces; false for TensorProductShape (other than hypercubes) and QN, where a TypeError is raised because __new__ has required arguments that __getnewargs__ does not supply.", "quantifier": "for all shapes, spaces, dimensions and orders", "why_tests_cant": "The tests pickle a few objects; whether __new__, __getnewargs__ and the flattened fields fit together has to be checked for every class and every number of factors.", "anchors": ["modepy/shapes.py:Shape", "modepy/shapes.py:TensorProductShape", "modepy/shapes.py:Hypercube", "modepy/spaces.py:TensorProductSpace", "modepy/spaces.py:QN"]}
{"id": "C75", "title": "Lebesgue constant and modal coefficient estimators on the polynomials of the space", "statement": "For every simplex or product of simplices of positive dimensions, every order n >= 1 with 30 n < 2e10, and nodes that determine the polynomials of the space (equispaced nodes of every order and edge-clustered nodes up to order 4 do), estimate_lebesgue_constant returns a number L such that |f(y)| <= L max |f(nodes)| for every polynomial f of the space at every sample point y, with equality for some f; all sample points lie in the element, so L never exceeds the Lebesgue constant; L does not depend on the order of the nodes. interp_error_coefficient_estimator_matrix applied to the nodal values of any polynomial of the space gives its inner products with the orthonormal modes of the highest degrees.", "quantifier": "for all elements, orders, node sets, numbers of tail orders and polynomials of the space", "why_tests_cant": "The tests compare a handful of constants with recorded values; extremality over all polynomials and independence of the basis are statements about infinitely many functions.", "anchors": ["modepy/tools.py:estimate_lebesgue_constant", "modepy/tools.py:_evaluate_lebesgue_function", "modepy/modal_decay.py:interp_error_coefficient_estimator_matrix"]}
{"id": "C76", "title": "Equispaced nodes in double precision", "statement": "With every operation of t / n * 2 - 1 rounded to binary64 (nearest, ties to even), the coordinates stay in [-1, 1], the end points are exactly -1 and 1, the order of indices is kept (strictly up to order 2^51), powers of two are exact, and the error is at most 3 * 2^-53. The rounded nodes of every (tensor-product) space of orders up to 2^51 are distinct, within 3 * 2^-53 of the exact ones in every coordinate, and still determine the polynomials of the space; the vertices are among them. They leave the simplex by at most 3 d 2^-53 in the sum of the coordinates; that they lie in the simplex is false (order 5 on the triangle). Up to order 10^10, with factors of dimensions 1 to 3, the Vandermonde matrix, the resampling, mass and differentiation matrices on the rounded nodes are defined and exact on the polynomials of the space.", "quantifier": "for all orders up to 2^51, dimensions and nested tensor products", "why_tests_cant": "Tests compare rounded nodes of small orders with tolerances; that rounding never merges two nodes, never makes the Vandermonde matrix singular and never leaves the tolerance-strip conditions has to hold for every order.", "anchors": ["modepy/nodes.py:equispaced_nodes_for_space"]}
{"id": "C77", "title": "Applying a quadrature rule in double precision", "statement": "Quadrature.__call__ evaluates np.dot(weights, values). In binary64 with rounding to nearest, for every order of summation, any number of partial sums and with or without fused multiply-add, the result differs from the exact sum by at most ((1+u)^n - 1) sum |w_i v_i| + n (1+u)^n 2^-1075 with u = 2^-53. It is exact if all products are integer multiples of one power of two with moduli adding up to at most 2^53 of it, not negative if no product is, and results for permuted nodes differ by at most twice the bound. With a rule of error del, weights off by ew and function values off by ev the integral is obtained up to an explicit sum of these errors. Errors are raised exactly when they are raised in exact arithmetic.", "quantifier": "for all rules, functions, orders of summation", "why_tests_cant": "Tests use one BLAS and a generous tolerance; the order of summation is not specified by numpy.", "anchors": ["modepy/quadrature/__init__.py:Quadrature.__call__"]}
{"id": "C78", "title": "Transformed1DQuadrature in double precision", "statement": "With double end points, Transformed1DQuadrature refuses exactly the empty intervals (rounding the length never makes a non-empty interval empty). Its nodes keep their order, none lies left of the interval, -1 goes to the left end point exactly, and nodes and weights differ from the exact ones by at most u (4 (b - a) + max(|a|, |b|)) + 2^-1074 and 2 u (b - a)|w| + 2^-1074 (|w| + 1). Expected: 1 goes to the right end point; this is false (the node can lie outside of the interval), but true if 0 < a < b <= 2a.", "quantifier": "for all rules on [-1, 1] and all intervals", "why_tests_cant": "Tests use a few intervals with short binary end points, where no rounding takes place.", "anchors": ["modepy/quadrature/__init__.py:Transformed1DQuadrature"]}
{"id": "C79", "title": "Tensor-product quadrature in double precision", "statement": "With products of weights rounded to binary64 in any order, TensorProductQuadrature raises what it raises in exact arithmetic, has the same nodes and degree, and, if the weights of the d factors have relative error eps and are zero or between 2^-k and 2^k with k d <= 1022, weights of relative error at most (1 + eps)^d (1 + u)^(d-1) - 1; applying the rule to N values adds the factor (1 + u)^N and an underflow term. Under these bounds positive weights stay positive and do not overflow; without them positive weights may become zero. Powers of two are multiplied exactly.", "quantifier": "for all numbers of factors, rules, weights in the range, orders of multiplication and summation", "why_tests_cant": "Tests integrate a few monomials with tolerances; a bound on the rounding error that holds for every rule, dimension and evaluation order is not observable on samples.", "anchors": ["modepy/quadrature/__init__.py:TensorProductQuadrature.__init__", "modepy/quadrature/__init__.py:Quadrature.__call__"]}
{"id": "C80", "title": "Order one: values between those at the vertices, Lebesgue constant one", "statement": "A function of the space of order one of a simplex or of a product of simplices that lies between m and M at the unit vertices lies between m and M on the whole element. Hence estimate_lebesgue_constant returns exactly 1 for order one and any admissible nodes that include the unit vertices, in particular for the equispaced nodes.", "quantifier": "for all dimensions, products of any number of simplices, functions of the space and points of the element", "why_tests_cant": "The tests only check that estimates are small for some nodes, with sampled points; the maximum principle quantifies over all functions and points.", "anchors": ["modepy/tools.py:estimate_lebesgue_constant", "modepy/shapes.py:unit_vertices_for_shape", "modepy/nodes.py:equispaced_nodes_for_space"]}
{"id": "C81", "title": "vandermonde with scalar-returning and with tuple-returning functions", "statement": "For scalar functions vandermonde returns the matrix V[i,j] = f_j(x_i); for tuple-returning functions it returns, deprecated, the same as multi_vandermonde including exceptions; for the gradients of a basis that is one matrix per axis holding the partial derivatives of the basis functions. A list that mixes both kinds is refused.", "quantifier": "for all lists of functions and nodes, spaces, offered bases and points outside of the tolerance strips", "why_tests_cant": "The tests call each variant for a few bases; they never mix both kinds and cannot cover all functions and nodes.", "anchors": ["modepy/matrices.py:vandermonde", "modepy/matrices.py:multi_vandermonde"]}
