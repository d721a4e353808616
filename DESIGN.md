# Formal model of modepy: design

This file says, for every property of `properties.jsonl`, what is modelled and how it is proved.
It is written before the proofs and kept up to date with them.  The Rocq development is in
`rocq/theories` (logical name `Verif`).

## Conventions of the model

* **Numbers.** `float64` values are modelled by exact real numbers (`Coq.Reals.R`, or, where a theorem
  is purely algebraic, an arbitrary field of characteristic 0 in the sense of mathcomp).  Rounding,
  overflow, NaN and dtype handling are *not* modelled.  Where the code relies on NaN or inf (division by a
  zero that is masked by a later `where`) the comment at the definition says so.
* **Integers.** Python ints are `nat` or `Z`; where a negative argument is possible and observable `Z` is used.
* **Arrays.** A `(dim, npts)` array of points is modelled by the list of its columns (each a list of `dim`
  coordinates); vectorised evaluation is modelled by pointwise evaluation.  Only the reshape property (C04)
  needs real n-d arrays; they are modelled as shape + flat data.
* **Exceptions are values** of the type `res A := Ok a | Err e` with one constructor per Python exception class.
* **External code** (numpy linear algebra, `numpy.fft.ifft`, `eigh`, `heapq`, random generators, `pytools`)
  is either modelled by its mathematical definition (matrix inverse, DFT, list enumeration) or, where the
  result is not determined (eigenvectors, random numbers, heap order among ties), theorems quantify over every
  result satisfying the documented contract.
* Definitions sit in `Model*.v` files and carry `file:lines` citations of `/repo`.  Proofs are in other files.
  Theorems for the properties are stated in `Props*.v` files, each followed by `Print Assumptions` and a
  non-vacuity example.

## Plan per property

| id | model | proof idea |
|----|-------|-----------|
| C01 | pytools enumerators as list functions, `PN.space_dim` as binomial | induction on dimension; membership, NoDup, hockey-stick count |
| C02 | `_node_tuples_for_tp` | mixed-radix digit lemma on nested loops |
| C03 | `tensor_product_nodes` on column lists | same digit lemma |
| C04 | n-d arrays, Fortran-order reshape | flat-index arithmetic |
| C05 | all four enumerations | corollary of digit lemmas |
| C06 | `mode_ids`, `functions`, `gradients` of the basis classes | C01 + product enumeration |
| C07 | `Shape` classes as an inductive type with Python's `__new__`/`__init__` protocol | induction on nesting |
| C08 | `FunctionSpace` classes likewise | induction on nesting |
| C09 | face tables and face maps over R | case analysis on tables, linear arithmetic for all points |
| C10 | `face_normal` via the wedge-product determinant formula | case analysis, linear arithmetic |
| C11 | `submesh_for_simplex` over integer tuples with dictionary lookup | floor decomposition of points, linear arithmetic |
| C12 | `submesh_for_hypercube` | digit lemma |
| C13 | `equidistant_nodes` | arithmetic |
| C14 | rejection loop with fuel over an arbitrary stream of draws | loop invariant |
| C15 | coordinate maps over R; `AffineMap` over mathcomp matrices | algebra |
| C16 | `Monomial` | Dirichlet integral by induction with iterated Riemann integrals |
| C17 | `jacobi` over R | explicit formula for Jacobi polynomials solves the recurrence, beta integrals, Favard argument |
| C18 | `grad_jacobi` | derivative of the explicit formula |
| C19 | `scaled_jacobi` | explicit formula at +-1 |
| C20 | `pkdo_2d` | Duffy transform + C17 |
| C21 | `pkdo_3d` | Duffy transform twice + C17 |
| C22 | `grad_pkdo_2d/3d` | chain rule + C18 |
| C23 | monomial functions | product rule |
| C24 | `TensorProductBasis` with its function objects | induction over factors |
| C25 | same | factorisation of the functional |
| C26-C29 | matrices as mathcomp matrices, solve/inv by `invmx` with singularity test | matrix algebra |
| C30 | `diff_matrix_permutation` with dictionary lookup | permutation lemmas + matrix algebra |
| C31 | Lebesgue function | triangle inequality |
| C32, C33 | quadrature records | linearity, substitution, Fubini for finite sums |
| C34 | selection logic with the availability of tables as a parameter | arithmetic; known failing case stated as a refutation |
| C35 | Grundmann-Moeller rule over rationals | type-B Eulerian polynomials |
| C36 | Euclid helpers over Z | strong induction |
| C37 | Golub-Welsch with eigendecomposition as hypothesis | moments of the truncated Jacobi matrix |
| C38 | Lobatto weights | interpolatory weights; refutation for general (a,b) |
| C39 | DFT-based weights | discrete cosine orthogonality |
| C40 | maps over R | derivatives, substitution |
| C41 | `_evalrule`, `make_kronrod_quadrature` on lists | list induction |
| C42 | adaptive loop as a state machine | invariant |
| C43 | transformed integrands | substitution theorem; refutation for reversed semi-infinite limits |
| C44 | sentinel comparisons | case analysis |
| C45 | `skyline_pessimize` | induction |
| C46 | estimator matrix | matrix algebra |
| C47 | `linearly_combine` | matrix algebra on lists |
| C48 | Cholesky contract | matrix algebra |
| C49 | residual and Jacobian | derivatives of finite sums |
| C50 | weights from a linear system | matrix algebra |
| C51, C60, C61 | warp-and-blend nodes on lists of columns | warp is an odd interpolation polynomial; displacements in barycentric coordinates |
| C52 | evaluation of generic code at symbolic and numeric values | homomorphism argument |
| C53 | `zerod_basis` | computation (expected to be refuted: the code returns 2) |
| C54 | `_eigpoly`, `_eigvec1` | determinant recurrence |
| C55 | residual estimate | order reasoning; normal equations of the least-squares fit |
| C56-C58 | Gauss and Kronrod rules of the adaptive integrator | tridiagonal matrices as in C37; symmetric halves |
| C59 | strip map | derivatives of elliptic functions from their specification |
| C62 | diagonal mass matrix | C34 for products of functions |
| C63 | Laurie's algorithm | mixed moments; the trailing matrix has the Legendre polynomial as characteristic polynomial; interlacing from positivity of both rules |
| C64 | no refinement | C57 and C63 on every panel |
| C65 | unisolvence of equispaced nodes | Newton polynomials of the lattice make the transposed Vandermonde matrix triangular; tensor products by freezing variables; orthonormal bases through C20, C21, C25; spans by dimension; then C26, C27, C28, C30 without hypothesis on the nodes |
| C66 | edge-clustered and Gauss tensor product nodes | on the boundary the nodes are the one-dimensional Lobatto points (C51, C60), so a vanishing polynomial is divisible by the bubble; interior nodes up to order 4 by hand with bounds on the warp; tensor products as in C65; operators on arbitrary nodes that determine the space |
| C67 | differentiation matrices on their own nodes | values and gradients of each mode as one polynomial at all good points (collapsed vertices included), by induction over tensor products; own-node matrices act as partial derivatives on term lists, which commute and lower the degree |
| C68 | divergence theorem on the code's faces | volume and face moments of half-shifted monomials (Dirichlet integrals) for each shape; the identity per monomial, then linearity; the surface Jacobian is the root of the Gram determinant of the face map and is matched to the length of the unnormalised normal |
| C69 | deprecated quadrature mass matrices | model of matrices.py:485-599; rows built in Python loops equal the columns of the Vandermonde matrix scaled by the weights; la.solve only sees entries inside the shape; errors compared branch by branch |
| C70 | exact face mass matrices, summation by parts | the trace of a polynomial of the space is in the face's space (ProofTrace); C69_face_pairing turns the face mass matrix into the rule on products; C66/C67 for mass and differentiation, C68_by_parts for the boundary term; apply to nodal basis functions |
| C71 | table-driven classes for any table | branch by branch for the refusals; moments of the row against the integrals of monomials over the simplex (Dirichlet), scaled by the volume; linearity over term lists |
| C72 | the shipped tables | the decimals are exact integers over a power of ten (`ModelData*.v`, generated from the text of the data files); nodes and weights are rounded to 63-bit fractions, all moments are computed with machine integers (`mulc`) and compared with the exact ones, with proved error bounds (`ProofFixed*.v`, `ProofTables*.v`); the check is run by the kernel's virtual machine |
| C73 | quadrature_for_space with the shipped tables | C34's dispatch instantiated with the table of C72; moments of a product rule are products of moments, and |r1 r2 - v1 v2| is bounded by (V1+e1)(V2+e2) - V1 V2; induction over the space |
| C74 | equality, copies, pickles | structural recursion over the object; constructors give flattened bases |
| C75 | Lebesgue constant, coefficient estimators on the polynomials of the space | C31 and C46 composed with the spanning and unisolvence results of C65 and C66; the samples are off the strips and in the element |
| C76 | equispaced nodes in double precision | binary64 rounding from Flocq after every operation; monotonicity and error of one coordinate, lattice unisolvence for any injective coordinates, C66 for the operators |
| C77 | applying a rule in double precision | `dot64`, a relation for all orders of summation; induction with Flocq's relative error of sums and products |
| C78 | `Transformed1DQuadrature` in double precision | rounding errors composed; sums of doubles do not underflow |
| C79 | tensor-product rules in double precision | relative errors of products by induction on the relation for np.prod; lower bounds 2^-k of the factors are kept by rounding, so no underflow |
| C80 | order one: vertex bounds and Lebesgue constant | barycentric interpolation of monomials of degree one, factor by factor; then C31 and C75 |
| C81 | vandermonde with scalars and tuples | model of matrices.py:87-168 for both kinds of functions, including numpy's broadcasting of a column; then C67 for gradients |

# Trusted base

* Coq's kernel (8.16.1).  No axiom is declared in this development, no kernel check is switched off, nothing is
  admitted.  Libraries used: Coq's standard library, mathcomp (matrices over the reals, in `RField.v`, `ModelLinAlg.v`),
  Coquelicot (derivatives, Riemann integrals, complex numbers) and Flocq (rounding to binary64, in `ModelFloat.v`);
  the latter three add no axioms of their own.
* The axioms of the standard library listed by `Print Assumptions` for each theorem, see the table below.
* The reading of the Python code, that is: the `Model*.v` files.  Every definition cites the lines it models.

## What stands for external code

| external code | in the model |
|---|---|
| IEEE arithmetic | exact real (complex) numbers; no rounding, NaN, overflow, dtypes, warnings; except in `ModelFloat.v`, where every operation is rounded to binary64 (no overflow, NaN) |
| numpy arrays | lists of columns; `ModelNd.v` for reshapes (`order="F"`), broadcasting not modelled beyond the shapes that occur |
| `la.solve`, `la.inv`, `@`, `einsum` | exact linear algebra: `Err LinAlgError` for singular matrices (`ModelLinAlg.v`), shapes checked |
| `la.lstsq` | the pseudo-inverse applied to the right-hand side |
| `scipy.linalg.cholesky`, `solve_triangular` | arbitrary functions satisfying their specification; `C48_routines_exist` shows that the specification can be met |
| `la.eigh`, `la.eigvalsh` | arbitrary functions; theorems assume a correct decomposition of the one matrix in question (`eigh_at`, `lobatto_eigh`, `eig_exact`), and where needed ascending eigenvalues; `C37_decomposition_exists`, `C38_eigh_exists`, `good_eigh_exists` show that such functions exist |
| `scipy.special.roots_jacobi` | an arbitrary function; theorems are about the built-in backend |
| `np.fft.ifft` | its defining sum |
| `scipy.special.ellipk`, `ellipj` | functions satisfying `SpecElliptic.v`: derivatives and values at the end points |
| `scipy.optimize` root finder in `_strip_map_parameter_m` | its result is an argument |
| `heapq` | any function that removes a segment of greatest error (`C42`) |
| `math.gamma`, factorials | Euler's Gamma function, defined and characterised in `ProofGamma*.v` |
| random generators | an arbitrary stream of draws |
| `pytools` (index tuple generators, `is_single_valued`) | `PyToolsModel.v` |
| `pymbolic` (expressions; `MultiVector` wedge products) | `ModelSymbolic.v`, `ModelFaces.v` |
| `functools.singledispatch` | dispatch by cases on the shape or space |
| iteration order of `set(range(3)) - {i}` (nodes.py:158) | increasing |
| rule tables (`*_data.py`) | `ModelData*.v`: every decimal literal as an exact integer over a power of ten (Python rounds it to a double); C34 and C71 are about arbitrary tables |
| 63-bit machine integers | only in the checking function of C72, not in the model: Coq's primitive `Uint63` and its specification axioms (`Coq.Numbers.Cyclic.Int63`) |

## Parts of the code that are not modelled

* `modepy/tools.py:254-310` (`plot_element_values`) and everything that plots or prints (`__repr__`, `__str__`).
* Hashing of shapes; copies and pickles of faces, bases and rules.
* Deprecation shims in `modepy/__init__.py` and module-level `__getattr__`.
* `dtype` selection, masked-array handling in `_where`, warnings (except where C50 looks at one).
* Custom user subclasses of `Shape`, `FunctionSpace`, `Basis`.
* Self tests in `kronrod.py:578-647`, the test suite, examples and documentation.

# Findings

Statements one would expect from docstrings or from neighbouring code, which are false of the model (and of the code it
was read from).  Each is a theorem; the number is that of the property.

| theorem | finding |
|---|---|
| `C07_single_hypercube_refuted` | `TensorProductShape((Hypercube(2),))` raises TypeError instead of collapsing to the hypercube |
| `C07_nfaces_point_factor_refuted` | `nfaces` of a point times a segment is 3, although the shape is a segment |
| `C07_nfaces_hypercube0_refuted` | `Hypercube(0).nfaces` raises ValueError |
| `C08_single_QN_refuted` | `TensorProductSpace((QN(2, n),))` raises TypeError |
| `C08_QN0_order_refuted` | `QN(0, n).order` raises IndexError |
| `C12_prism_refuted` | the submesh of a prism omits the inverted triangles, so it does not cover the prism |
| `C16_hypercube_factor_refuted` | `Monomial.hypercube_integral` ignores the factor, unlike `simplex_integral` |
| `C16_diff_argument_refuted` | `Monomial.diff` differentiates with respect to the scaled coordinate (xi + 1)/2, not the argument of the callable |
| `C17_window_refuted` | for alpha + beta + 1 within 1e-14 of 0 (but not 0) the special case is taken and the polynomials are not normalised |
| `C20_strip_refuted` | inside the strip of width 1e-12 at the collapsed vertex the triangle functions are not the polynomials, so their integrals are off by an explicit tiny amount |
| `C23_axis_refuted`, `C24_axis_refuted` | a derivative axis that does not exist (negative ones included) is accepted and the function is returned undifferentiated |
| `C29_flat_refuted` | `nodal_quadrature_test_matrix` with `nodes=None` raises IndexError for one-dimensional rules with flat nodes |
| `C34_not_implemented_refuted` | the NotImplementedError of `quadrature_for_space` is lost: building its message raises AttributeError (`type(shape).__name`) |
| `C34_anisotropic_refuted` | `quadrature_for_space` ends in an AssertionError for anisotropic spaces such as P1 x P5 |
| `C38_jacobi_refuted`, `C38_gegenbauer_refuted` | Jacobi-Gauss-Lobatto rules with a weight other than alpha = beta = 0 are not exact for constants |
| `C38_nodes_flat_refuted` | `jacobi_gauss_lobatto_nodes` ignores `force_dim_axis` for N = 0 |
| `C39_node_order` | Clenshaw-Curtis nodes are ascending for N = 1 and descending otherwise |
| `C43_wrong_half_line_refuted` | `quadgk` with break points `[a, -inf]` integrates over the other half line |
| `C43_reverse_ties_refuted` | reversing the break points does not always negate the result: panels that tie for the largest error are refined in another order |
| `C44_two_infinities_refuted` | `ZeroDimensionalQuadrature` advertises `np.inf`, which the sentinel `inf` cannot be compared with and `isinf` does not recognise |
| `C46_empty_product_refuted` | a product basis without factors has one function but no degree vector |
| `C47_consistent_refuted` | `linearly_combine` raises for consistent inputs if there are not as many combinations as basis functions |
| `C47_tuple_refuted` | combinations holding a tuple of functions are never flattened |
| `C48_mass_hermitian_refuted` | `_mass_matrix` does not conjugate its upper triangle, so it is not the Gram matrix of complex functions |
| `C49_flat_refuted` | `quad_residual_and_jacobian` always refuses node arrays of shape (nnodes,), although documented |
| `C50_warning_refuted` | the warning of `find_weights_undetermined_coefficients` about an underdetermined system compares with the dimension, not the number of nodes |
| `C53_refuted` | `zerod_basis` returns 2, so the basis of a point is not normalised |
| `C62_lobatto_inexact` | the diagonal matrix of Gauss-Lobatto weights is not the exact mass matrix |
| `C74_copy_shape` | `copy.copy`, `copy.deepcopy` and unpickling of a `TensorProductShape` (a prism, say) raise TypeError: there is no `__getnewargs__` for the required argument of `__new__` |
| `C74_copy_qn_refuted` | the same for `QN`: the inherited `__getnewargs__` does not fit its `__new__` |
| `C74_square_refuted` | `Hypercube(2)` and `TensorProductShape((Simplex(1), Simplex(1)))` are the same set but not equal |
| `C76_inside_refuted` | in double precision a node of the triangle of order 5 lies outside the triangle (by 2^-53) |
| `C78_right_refuted` | `Transformed1DQuadrature` can put the node for 1 outside of the interval: `left + (right - left)` exceeds `right` after rounding |
| `C79_positive_refuted` | products of positive quadrature weights can underflow to zero (weights far below those of the shipped rules) |
| `C81_mixed_refuted` | `vandermonde`/`multi_vandermonde` accept a tuple-returning function followed by a scalar one on few nodes, and then store f(x_c) in every row of the column of matrix c |

Further observations, not stated as theorems:

* Tolerances: `warp_factor` switches the warp off within 1e-10 of the end points, `warp_and_blend_nodes_3d` tests faces with
  tolerance 1e-8; so conformity is proved for orders below 2*10^10 and up to 10^8 respectively.
* The face nodes of tetrahedra are made with the blending parameter of the tetrahedron, so they differ from the
  nodes of `warp_and_blend_nodes(2, n)` (C61 is about equal parameters).
* `warp_and_blend_nodes_2d/3d` called directly with n = 0 divide by zero.
* `inverse_mass_matrix` does not check that the basis has as many functions as there are nodes.
* `Monomial.simplex_integral` is documented for the unit simplex, its value is that of the bi-unit one.
* `tensor_product_nodes` of zero-dimensional node sets always has one column.
* `_strip_map_parameter_m`: the bracket of the root finder does not contain the root for rho beyond about 6000.
* `quadgk` on a half line with break points outside of it divides by zero or leaves the unit interval.
* `orthonormal_basis_for_space` does not compare the dimensions of space and shape.

# Assumptions per theorem

As printed by `Print Assumptions` (the `Props*.v` files print them at build time).
The names are short for: `sig_forall_dec` = `Coq.Reals.ClassicalDedekindReals.sig_forall_dec`; `sig_not_dec` = `Coq.Reals.ClassicalDedekindReals.sig_not_dec`; `functional_extensionality_dep` = `Coq.Logic.FunctionalExtensionality.functional_extensionality_dep`; `classic` = `Coq.Logic.Classical_Prop.classic`; `constructive_indefinite_description` = `Coq.Logic.ClassicalEpsilon.constructive_indefinite_description`.

**Closed under the global context** (64):
C01_node_tuples_pn, C02_node_tuples_tp, C03_columns_are_combinations, C03_tensor_product_nodes, C03_tensor_product_nodes_int, C04_bad_axis, C04_reshape, C04_reshape_mismatch, C04_reshape_unreshape, C04_unreshape, C04_unreshape_mismatch, C04_unreshape_reshape, C07_accepts, C07_dims, C07_flat, C07_hypercube, C07_nfaces, C07_nfaces_hypercube0_refuted, C07_nfaces_point_factor_refuted, C07_single_hypercube_refuted, C07_single_product, C07_single_simplex, C08_QN, C08_QN0_order_refuted, C08_dims, C08_flat, C08_flattens, C08_order, C08_simplex_order_tuple, C08_single_QN_refuted, C08_space_for_shape, C08_succeeds, C11_lattice, C11_order0, C11_refused, C12_lattice, C24_constructors, C30_exch_meaning, C30_keyerror, C30_permutation, C36_canonical, C36_euclid, C36_simplify, C36_zero_over_zero, C44_add, C44_antisymmetric, C44_min, C44_min_float, C44_top, C44_transitive, C44_trichotomy, C49_flat_refuted, C56_gauss_refused, C67_degree, C71_available_witherden_vincent, C71_refused_witherden_vincent, C72_keys_distinct, C74_copy_hypercube, C74_copy_pn, C74_copy_qn_refuted, C74_copy_shape, C74_copy_simplex, C74_copy_space_for_shape, C74_eq.

**`sig_forall_dec`** (17):
C16_diff_defined, C23_mismatch, C40_not_1d, C47_consistent_refuted, C47_flattened, C47_plain, C47_tuple_refuted, C48_mass_matrix, C49_shapes_and_entries, C49_wrong_axes, C49_wrong_count, C54_matrix, C62_refused, C74_square_refuted, C81_mixed_errors, C81_mixed_refuted, C81_scalar.

**`sig_forall_dec`, `functional_extensionality_dep`** (61):
C07_vertices, C09_faces, C09_refused, C11_simplex, C12_hypercube, C12_prism_refuted, C13_equispaced_product, C13_equispaced_simplex, C13_mismatch, C13_user_tuples, C14_random_shape, C14_random_simplex, C15_barycentric, C15_barycentric_round_trip, C15_unit_round_trip, C15_vertices, C16_call, C16_hypercube_factor_refuted, C23_axis_refuted, C32_defined, C32_empty, C32_exact, C32_exact_to, C32_nodes, C33_defined, C33_exact, C33_exact_to, C33_honest, C33_product, C35_defined, C35_exact_to, C35_nodes, C36_distinct_nodes, C40_identity, C40_rule, C40_sausage_refused, C41_panel, C41_symmetric, C42_invariant, C42_stop, C42_worst, C43_neg_map, C43_pos_map, C43_reverse_panel, C44_two_infinities_refuted, C45_row, C45_rows, C45_short, C47_linear_combination, C48_mass_hermitian_refuted, C49_residual_zero, C69_modal, C69_modal_face, C70_rules, C71_available_jaskowiec_sukumar, C71_refused_jaskowiec_sukumar, C72_tabulated, C73_covers, C73_exact_without_tables, C80_between, C81_tuple.

**`sig_forall_dec`, `sig_not_dec`, `functional_extensionality_dep`** (19):
C10_normals, C15_equilateral, C15_equilateral_edges, C15_equilateral_other, C23_monomial, C39_node_order, C39_refused, C41_size, C42_quadgk, C42_too_few, C43_both_map, C43_reverse, C43_weights_positive, C43_wrong_end, C48_refused, C48_returns, C49_node_jacobian, C68_scaling, C71_refused_vioreanu_rokhlin.

**`sig_forall_dec`, `sig_not_dec`, `classic`, `functional_extensionality_dep`** (116):
C05_shared_ordering, C06_monomial, C06_nested, C06_orthonormal, C16_diff, C16_diff_argument_refuted, C16_hypercube, C16_hypercube_call, C16_simplex, C17_jacobi_orthonormal_nat, C17_jacobi_orthonormal_real, C17_window_refuted, C18_grad_jacobi, C19_scaled_jacobi, C20_code_integral, C20_strip_refuted, C20_triangle_orthonormal, C21_tetrahedron_orthonormal, C22_grad_pkdo_2d, C22_grad_pkdo_2d_limit, C22_grad_pkdo_3d, C22_grad_pkdo_3d_limit, C24_axis_out_of_range, C24_axis_refuted, C24_gradients, C24_negative_axis, C24_product, C25_for_space, C25_hypercube, C25_orthonormal, C28_accepted, C35_exact, C35_volume, C37_decomposition_exists, C37_refused, C37_rule, C37_special_cases, C37_unique, C38_eigh_exists, C38_gegenbauer_refuted, C38_jacobi_refuted, C38_nodes, C38_nodes_flat_refuted, C38_refused, C39_clenshaw_curtis, C39_fejer1, C39_fejer2, C40_change_of_variables, C40_kosloff_tal_ezer, C40_kosloff_tal_ezer_refused, C40_sausage, C40_sausage_exact, C43_both_improper, C43_both_integrand, C43_both_panel, C43_both_run, C43_neg_improper, C43_neg_integrand, C43_neg_panel, C43_neg_run, C43_pos_improper, C43_pos_integrand, C43_pos_panel, C43_pos_run, C43_wrong_half_line_refuted, C46_degree_product, C46_degree_simplex, C46_empty_product_refuted, C48_orthonormal, C49_weight_jacobian, C52_any_arithmetic, C52_derivatives, C52_functions, C52_gradients, C52_jacobi, C52_modes, C53_refuted, C56_eigvalsh_exists, C59_change_of_variables, C59_strip, C59_strip_refused, C67_gradients, C68_by_parts, C68_closed, C68_divergence, C68_flux, C71_jaskowiec_sukumar, C71_vioreanu_rokhlin, C73_volume, C76_coordinate, C76_distinct, C76_inside_refuted, C76_power_of_two, C76_refused, C76_vertices, C77_call, C77_defined, C77_error, C77_exact, C77_nonneg, C77_order, C77_total, C78_error, C78_order, C78_refused, C78_right_exact, C78_right_refuted, C79_call, C79_defined, C79_positive, C79_positive_refuted, C79_powers_of_two, C79_product, C79_rule, C79_weights, C81_gradients.

**`sig_forall_dec`, `constructive_indefinite_description`, `classic`, `functional_extensionality_dep`** (32):
C15_inverse, C15_inverse_defined, C26_composition, C26_exact, C26_identity, C26_least_squares, C26_nonsquare, C26_singular, C26_square_only, C27_mismatch, C29_bilinear, C29_flat_refuted, C29_test_matrix, C29_test_matrix_mapped, C29_test_matrix_succeeds, C49_increment, C49_increment_solves, C49_succeeds, C50_mismatch, C50_square, C50_succeeds, C50_warning_flat, C50_warning_refuted, C50_weights, C69_face_mass, C69_face_pairing, C69_face_succeeds, C69_quad_mass, C69_quad_mass_face, C69_refused, C69_volume_mismatch, C75_equispaced.

**`sig_forall_dec`, `sig_not_dec`, `constructive_indefinite_description`, `classic`, `functional_extensionality_dep`** (99):
C15_jacobians, C27_basis, C27_exact, C28_for_space, C28_lagrange, C28_mass, C28_refused, C29_equals_mass, C30_matrices, C30_monomials, C31_at_least_one, C31_bound, C31_defined, C31_dimension, C34_anisotropic_refuted, C34_exact, C34_legendre_gauss_lobatto_tp, C34_legendre_gauss_tp, C34_not_implemented_refuted, C34_pn, C34_pn_exact, C34_pn_fallback, C34_pn_mismatch, C34_tp, C34_tp_assertion, C34_tp_defined, C34_tp_isotropic, C34_tp_mismatch, C37_exact, C37_exact_real, C38_legendre_exact, C38_legendre_rule, C40_legendre_gauss, C43_reverse_ties_refuted, C46_estimator, C48_routines_exist, C51_one_dim, C51_one_dim_tuples, C51_refused, C51_tetrahedron, C51_tetrahedron_nodes, C51_triangle, C51_triangle_nodes, C54_charpoly, C54_newton, C54_vector, C55_fit_defined, C55_normal_equations, C55_range, C56_gauss_exact, C57_kronrod_exact, C58_quadgk_exact, C60_tetrahedron, C60_tetrahedron_set, C60_triangle, C60_triangle_set, C61_faces, C62_gauss, C62_lagrange, C62_lobatto, C62_lobatto_inexact, C63_embedded, C63_interlaced, C63_same_as_gauss, C64_no_refinement, C65_differentiation, C65_equispaced, C65_interpolation, C65_lattice, C65_mass, C65_permutation, C65_resampling, C65_span, C66_bases, C66_edge_clustered, C66_edge_operators, C66_gauss_tensor, C66_interpolation, C66_lobatto_tensor, C66_operators, C66_refused, C66_triangle_interior, C67_edge_clustered, C67_equispaced, C67_exact, C67_own_nodes, C70_face_mass, C70_summation_by_parts, C75_edge_clustered, C75_estimator, C75_lebesgue, C75_lower_bound, C75_permutation, C76_derivatives, C76_operators, C76_simplex, C76_space, C80_equispaced, C80_lebesgue_one.

**`PrimInt63.add`, `PrimInt63.div`, `PrimInt63.eqb`, `PrimInt63.int`, `PrimInt63.land`, `PrimInt63.leb`, `PrimInt63.lor`, `PrimInt63.lsl`, `PrimInt63.lsr`, `PrimInt63.mul`, `PrimInt63.mulc`, `PrimInt63.sub`** (1):
C72_rectangular.

**`sig_forall_dec`, `sig_not_dec`, `constructive_indefinite_description`, `classic`, `functional_extensionality_dep`, `PrimInt63.add`, `PrimInt63.div`, `PrimInt63.eqb`, `PrimInt63.int`, `PrimInt63.land`, `PrimInt63.leb`, `PrimInt63.lor`, `PrimInt63.lsl`, `PrimInt63.lsr`, `PrimInt63.mul`, `PrimInt63.mulc`, `PrimInt63.sub`** (1):
C73_defined.

**`sig_forall_dec`, `sig_not_dec`, `classic`, `functional_extensionality_dep`, `PrimInt63.add`, `PrimInt63.div`, `PrimInt63.eqb`, `PrimInt63.int`, `PrimInt63.land`, `PrimInt63.leb`, `PrimInt63.lor`, `PrimInt63.lsl`, `PrimInt63.lsr`, `PrimInt63.ltb`, `PrimInt63.mulc`, `PrimInt63.sub`, `Uint63.add_spec`, `Uint63.div_spec`, `Uint63.eqb_correct`, `Uint63.eqb_refl`, `Uint63.leb_spec`, `Uint63.lor_spec`, `Uint63.lsl_spec`, `Uint63.lsr_spec`, `Uint63.ltb_spec`, `Uint63.mulc_spec`, `Uint63.of_to_Z`, `Uint63.sub_spec`** (1):
C72_witherden_vincent.

**`sig_forall_dec`, `sig_not_dec`, `classic`, `functional_extensionality_dep`, `PrimInt63.add`, `PrimInt63.div`, `PrimInt63.eqb`, `PrimInt63.int`, `PrimInt63.land`, `PrimInt63.leb`, `PrimInt63.lor`, `PrimInt63.lsl`, `PrimInt63.lsr`, `PrimInt63.ltb`, `PrimInt63.mul`, `PrimInt63.mulc`, `PrimInt63.sub`, `Uint63.add_spec`, `Uint63.div_spec`, `Uint63.eqb_correct`, `Uint63.eqb_refl`, `Uint63.leb_spec`, `Uint63.lor_spec`, `Uint63.lsl_spec`, `Uint63.lsr_spec`, `Uint63.ltb_spec`, `Uint63.mul_spec`, `Uint63.mulc_spec`, `Uint63.of_to_Z`, `Uint63.sub_spec`** (1):
C72_jaskowiec_sukumar.

**`sig_forall_dec`, `sig_not_dec`, `constructive_indefinite_description`, `classic`, `functional_extensionality_dep`, `PrimInt63.add`, `PrimInt63.div`, `PrimInt63.eqb`, `PrimInt63.int`, `PrimInt63.land`, `PrimInt63.leb`, `PrimInt63.lor`, `PrimInt63.lsl`, `PrimInt63.lsr`, `PrimInt63.ltb`, `PrimInt63.mul`, `PrimInt63.mulc`, `PrimInt63.sub`, `Uint63.add_spec`, `Uint63.div_spec`, `Uint63.eqb_correct`, `Uint63.eqb_refl`, `Uint63.leb_spec`, `Uint63.lor_spec`, `Uint63.lsl_spec`, `Uint63.lsr_spec`, `Uint63.ltb_spec`, `Uint63.mul_spec`, `Uint63.mulc_spec`, `Uint63.of_to_Z`, `Uint63.sub_spec`** (4):
C72_vioreanu_rokhlin, C72_xiao_gimbutas, C73_simplex, C73_space.
