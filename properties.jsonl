{"id": "C01", "title": "Atomic model value is the documented sum of Gaussians", "statement": "For every successfully constructed AtomicGaussianDensity and every pair of 1-D coefficient/exponent arrays of length nbasis, evaluate(coeffs, expons) returns at each grid point exactly sum_i c_i*N_s(a_i)*exp(-a_i r^2) + sum_j d_j*N_p(b_j)*r^2*exp(-b_j r^2), r the distance from the point to the center, with N_s=N_p=1 if normalize=False and (a/pi)^1.5, (2/3)a^2.5/pi^1.5 otherwise.", "quantifier": "all point sets (1-D or N x D), centers, num_s, num_p, both normalize settings, all real coefficients and exponents (positive exponents when normalize=True)", "why_tests_cant": "A unit test samples finitely many inputs; the formula must hold at every point, every s/p split and every parameter vector.", "anchors": ["bfit/model.py:AtomicGaussianDensity.evaluate", "bfit/model.py:AtomicGaussianDensity._eval_s", "bfit/model.py:AtomicGaussianDensity._eval_p"]}
{"id": "C02", "title": "Atomic model derivatives are the true partial derivatives", "statement": "evaluate(..., deriv=True) returns a second array with 2*nbasis columns whose k-th column is the partial derivative of the returned density with respect to coefficient k and whose (nbasis+k)-th column is the partial derivative with respect to exponent k, at every point.", "quantifier": "all models (s only, p only, mixed; normalized or not), all points, all parameters (exponents > 0 when normalized), all columns", "why_tests_cant": "A unit test samples finitely many inputs; finite differences at sample parameters approximate a derivative only at those parameters; here the limit is required at all of them.", "anchors": ["bfit/model.py:AtomicGaussianDensity.evaluate", "bfit/model.py:AtomicGaussianDensity._eval_s", "bfit/model.py:AtomicGaussianDensity._eval_p"]}
{"id": "C03", "title": "Asking for derivatives never changes the density values", "statement": "The density returned by evaluate(c, e, deriv=True)[0] is identical to evaluate(c, e, deriv=False), for atomic and molecular models, including for infinite/NaN entries and including which exception is raised.", "quantifier": "all models, all coefficient/exponent arrays of any shape with arbitrary (also non-finite) entries", "why_tests_cant": "A unit test samples finitely many inputs; equality is required on every input incl. non-finite ones.", "anchors": ["bfit/model.py:AtomicGaussianDensity.evaluate", "bfit/model.py:MolecularGaussianDensity.evaluate"]}
{"id": "C04", "title": "Molecular model value is the sum of its centers' densities", "statement": "For every successfully constructed MolecularGaussianDensity, evaluate(coeffs, expons) is the sum over centers of the atomic density of the center using the slice of coeffs/expons belonging to that center (centers in order, s-type before p-type inside a center).", "quantifier": "any number of centers, any s/p counts per center, any dimension, any real parameters", "why_tests_cant": "The slice arithmetic must be right for every number of centers and every composition.", "anchors": ["bfit/model.py:MolecularGaussianDensity.evaluate", "bfit/model.py:MolecularGaussianDensity.__init__"]}
{"id": "C05", "title": "Molecular derivative columns are true partial derivatives in the documented layout", "statement": "evaluate(..., deriv=True)[1] has 2*nbasis columns; column k (resp. nbasis+k) is the partial derivative of the total molecular density with respect to coefficient k (resp. exponent k).", "quantifier": "any molecule, any parameters, all columns", "why_tests_cant": "Column placement must be right for every composition of centers.", "anchors": ["bfit/model.py:MolecularGaussianDensity.evaluate"]}
{"id": "C06", "title": "assign_basis_to_center returns the owner of a basis function", "statement": "For 0<=index<nbasis assign_basis_to_center(index) returns the unique center j such that the number of basis functions on earlier centers is <= index < that number plus the size of center j; index>=nbasis raises ValueError; out-of-range negative indices should be rejected as well.", "quantifier": "all molecules, all integer indices", "why_tests_cant": "All indices of all basis layouts.", "anchors": ["bfit/model.py:MolecularGaussianDensity.assign_basis_to_center"]}
{"id": "C07", "title": "normalize=True makes every basis function integrate to one over R^3", "statement": "The normalized s-type and p-type basis functions have integral_0^inf 4 pi r^2 b(r) dr = 1 for every positive exponent, hence the model integrates to the sum of its coefficients.", "quantifier": "all positive exponents, all s/p counts, all real coefficients", "why_tests_cant": "An improper integral for every exponent; numerical quadrature in a test has truncation and discretization error.", "anchors": ["bfit/model.py:AtomicGaussianDensity._eval_s", "bfit/model.py:AtomicGaussianDensity._eval_p"]}
{"id": "C08", "title": "Model construction accepts exactly the well-formed arguments", "statement": "AtomicGaussianDensity/MolecularGaussianDensity construction succeeds exactly on well-formed arguments (array points, non-negative integer counts not both zero, 1-D center with matching dimension ...), raises the documented exception class otherwise, and evaluate returns one value per grid point.", "quantifier": "all argument combinations", "why_tests_cant": "All combinations of malformed arguments.", "anchors": ["bfit/model.py:AtomicGaussianDensity.__init__", "bfit/model.py:MolecularGaussianDensity.__init__"]}
{"id": "C09", "title": "Changing the number of basis functions keeps the model well-formed", "statement": "After any sequence of accepted change_numb_s_and_numb_p calls the model still has non-negative counts and at least one basis function, as enforced by the constructor.", "quantifier": "all histories of calls", "why_tests_cant": "History property.", "anchors": ["bfit/model.py:AtomicGaussianDensity.change_numb_s_and_numb_p"]}
{"id": "C10", "title": "Model density is linear in the coefficients and non-negative for non-negative coefficients", "statement": "evaluate is additive and homogeneous in coeffs for fixed expons; with coefficients >= 0 (and exponents > 0 when normalized) all returned values are >= 0, and > 0 where some s-type coefficient is positive.", "quantifier": "all models, all parameters, all points", "why_tests_cant": "Universal over parameters.", "anchors": ["bfit/model.py:AtomicGaussianDensity.evaluate", "bfit/model.py:MolecularGaussianDensity.evaluate"]}
{"id": "C11", "title": "Geometric invariances of the models", "statement": "Translating points and centers by the same vector leaves every returned value unchanged; a one-center molecular model equals the atomic model; permuting the centers together with their parameter blocks leaves the molecular density unchanged.", "quantifier": "all points, centers, parameters, permutations", "why_tests_cant": "Universal over transformations.", "anchors": ["bfit/model.py:AtomicGaussianDensity.__init__", "bfit/model.py:MolecularGaussianDensity.evaluate"]}
{"id": "C12", "title": "Squared difference is a pointwise square with exact derivative", "statement": "SquaredDifference.evaluate returns (f-g)^2 >= 0 at each point, zero exactly where f=g, its derivative is d/dg (f-g)^2, and it raises on ill-shaped arguments.", "quantifier": "all densities and models of any length", "why_tests_cant": "Universal over real inputs.", "anchors": ["bfit/measure.py:SquaredDifference.evaluate"]}
{"id": "C13", "title": "KL integrand: documented value, masking and negative-model rule", "statement": "KLDivergence.evaluate returns f*log(f/g) where g is above the mask and the quotient is safe, 0 where g is masked, and the constant negative_val at every point (value and derivative) as soon as one model value is negative. An infinite model entry gives minus infinity and derivative 0, an undefined one 0 and -1.", "quantifier": "all densities f>0, all real models, all mask values >= 0", "why_tests_cant": "Universal over inputs and mask values.", "anchors": ["bfit/measure.py:KLDivergence.evaluate"]}
{"id": "C14", "title": "KL derivative is the derivative of the KL integrand with respect to the model", "statement": "The second returned array equals d/dg of the first at every point.", "quantifier": "all points, masked or not", "why_tests_cant": "A derivative is a limit statement; masked points differ from unmasked ones.", "anchors": ["bfit/measure.py:KLDivergence.evaluate"]}
{"id": "C15", "title": "KL integrand is a finite number for every non-negative density and non-negative model", "statement": "For density >= 0 and finite model >= 0 all values are finite and NaN-free (0*log 0 = 0), and an undefined (NaN) model is never scored as a perfect fit.", "quantifier": "all non-negative densities (incl. zeros) and models (incl. NaN)", "why_tests_cant": "Boundary values are easily missed.", "anchors": ["bfit/measure.py:KLDivergence.evaluate"]}
{"id": "C16", "title": "Gibbs inequality on the grid", "statement": "If no point is masked, the integrated KL divergence is >= integral f - integral g for every quadrature with non-negative weights; hence it is >= 0 when both integrals agree and 0 only if f=g at every point of positive weight.", "quantifier": "all grids with non-negative weights, all positive densities/models", "why_tests_cant": "Inequality over all inputs.", "anchors": ["bfit/measure.py:KLDivergence.evaluate", "bfit/fit.py:_BaseFit.goodness_of_fit"]}
{"id": "C17", "title": "Tsallis integrand and derivative", "statement": "TsallisDivergence.evaluate returns f*((f/g)^(alpha-1)-1)/(alpha-1) at unmasked points and its derivative array is d/dg of that; construction rejects alpha<0 and alpha=1. Infinite and undefined model entries give -f/(alpha-1) for alpha>1 and minus infinity for 0<alpha<1.", "quantifier": "all alpha >= 0 with alpha<>1, all positive f,g", "why_tests_cant": "Universal over alpha, f, g.", "anchors": ["bfit/measure.py:TsallisDivergence.evaluate", "bfit/measure.py:TsallisDivergence.__init__"]}
{"id": "C18", "title": "Tsallis divergence with alpha>1 upper-bounds KL", "statement": "At every point the Tsallis integrand (alpha>1) is >= the KL integrand.", "quantifier": "all alpha>1, densities, models", "why_tests_cant": "Inequality over all inputs.", "anchors": ["bfit/measure.py:TsallisDivergence.evaluate", "bfit/measure.py:KLDivergence.evaluate"]}
{"id": "C19", "title": "Tsallis tends to KL as alpha tends to 1", "statement": "For fixed positive f,g the Tsallis integrand converges to the KL integrand as alpha -> 1.", "quantifier": "all positive f, g; limit", "why_tests_cant": "Limit statement.", "anchors": ["bfit/measure.py:TsallisDivergence.evaluate"]}
{"id": "C20", "title": "Radial integration is a linear positive functional, exact on affine integrands", "statement": "integrate(arr) is the trapezoid rule: linear in arr, exact for affine functions of r, monotone and non-negative on ascending grids, additive when a grid is split at a point; raises ValueError exactly on length mismatch.", "quantifier": "all ascending grids, all integrands", "why_tests_cant": "Universal over grids and integrands.", "anchors": ["bfit/grid.py:_BaseRadialGrid.integrate"]}
{"id": "C21", "title": "Uniform grid has the requested points", "statement": "UniformRadialGrid(n,a,b) has exactly n points, first point a, last point b (n>=2), constant spacing (b-a)/(n-1), strictly ascending, all within [a,b]; invalid arguments raise.", "quantifier": "all n>0, a<b", "why_tests_cant": "All sizes.", "anchors": ["bfit/grid.py:UniformRadialGrid.__init__"]}
{"id": "C22", "title": "Clenshaw grid points: count, order, range, origin", "statement": "ClenshawRadialGrid has num_core+num_diffuse+len(extra) points in ascending order, core points in [0,1/(2Z)], diffuse points in (0,25], origin included iff include_origin with a core point (or given explicitly); being radial points all are non-negative. Every rejected argument raises TypeError.", "quantifier": "all Z>0, all counts, all extra points", "why_tests_cant": "All sizes and extra points.", "anchors": ["bfit/grid.py:ClenshawRadialGrid.__init__", "bfit/grid.py:ClenshawRadialGrid._get_points"]}
{"id": "C23", "title": "Cubic grid enumerates the lattice in C order", "statement": "CubicGrid(origin,axes,(n0,n1,n2)) has n0*n1*n2 points and point (i*n1+j)*n2+k is origin+i*axes[0]+j*axes[1]+k*axes[2].", "quantifier": "all shapes, axes, origins", "why_tests_cant": "meshgrid/swapaxes/reshape must be right for all non-cubic shapes.", "anchors": ["bfit/grid.py:CubicGrid.__init__"]}
{"id": "C24", "title": "Cubic integration is a positive linear functional with the cell volume as weight", "statement": "All weights equal |det(axes)|; integrating the constant 1 gives |det(axes)|*n0*n1*n2; integrate is linear and monotone; ValueError exactly on length mismatch.", "quantifier": "all grids and integrands", "why_tests_cant": "Universal.", "anchors": ["bfit/grid.py:CubicGrid.integrate", "bfit/grid.py:CubicGrid._choose_weight_scheme", "bfit/grid.py:CubicGrid._calculate_volume"]}
{"id": "C25", "title": "from_molecule(rotate=False) covers the molecule with the requested extension", "statement": "Every atom plus the extension on both sides lies inside the box spanned by the grid.", "quantifier": "all molecules, spacings, extensions", "why_tests_cant": "All geometries; needs geometries off-center.", "anchors": ["bfit/grid.py:CubicGrid.from_molecule"]}
{"id": "C26", "title": "from_molecule(rotate=True) covers the molecule and has volume element spacing^3", "statement": "With axes from the inertia tensor's eigenvectors, every atom lies inside the grid box, and each weight is spacing^3.", "quantifier": "all molecules and every admissible eigenvector output", "why_tests_cant": "All geometries and eigenvector conventions.", "anchors": ["bfit/grid.py:CubicGrid.from_molecule"]}
{"id": "C27", "title": "Trapezoid integration converges to the true integral", "statement": "For Lipschitz integrands the uniform-grid integral differs from the Riemann integral by at most L*h*(b-a)/..., so it tends to it as num_pts grows.", "quantifier": "all Lipschitz integrands, all intervals", "why_tests_cant": "Limit over grid sizes.", "anchors": ["bfit/grid.py:_BaseRadialGrid.integrate", "bfit/grid.py:UniformRadialGrid.__init__"]}
{"id": "C28", "title": "Radial Slater orbitals are normalized", "statement": "integral_0^inf R_{n,zeta}(r)^2 r^2 dr = 1 for the function returned by radial_slater_orbital.", "quantifier": "all n>=1, zeta>0", "why_tests_cant": "Improper integral for all n, zeta.", "anchors": ["bfit/density.py:SlaterAtoms.radial_slater_orbital"]}
{"id": "C29", "title": "Derivative of radial Slater orbitals", "statement": "derivative_radial_slater_type_orbital returns dR/dr at every r with |r|>=1e-10 and 0 below.", "quantifier": "all n, zeta, r", "why_tests_cant": "Limit statement for all arguments.", "anchors": ["bfit/density.py:SlaterAtoms.derivative_radial_slater_type_orbital"]}
{"id": "C30", "title": "Core + valence = total density, all non-negative", "statement": "For every atom data set atomic_density(total) = core + valence pointwise, each part is >= 0 and <= total.", "quantifier": "all atoms' data (occupations >= 0), all points", "why_tests_cant": "Universal over atoms and points.", "anchors": ["bfit/density.py:SlaterAtoms.atomic_density"]}
{"id": "C31", "title": "Valence/core weighting uses the HOMO energy", "statement": "The reference energy used in mode core/valence is the highest occupied orbital energy.", "quantifier": "all atoms", "why_tests_cant": "Needs atoms whose last listed subshell is not the HOMO.", "anchors": ["bfit/density.py:SlaterAtoms.atomic_density"]}
{"id": "C32", "title": "derivative_density is the radial derivative of atomic_density", "statement": "At every r with |r|>=1e-10 derivative_density(r) = d/dr atomic_density(r, total).", "quantifier": "all atoms, all points", "why_tests_cant": "Limit statement.", "anchors": ["bfit/density.py:SlaterAtoms.derivative_density"]}
{"id": "C33", "title": "Kinetic energy density is non-negative and has the documented form", "statement": "positive_definite_kinetic_energy(r) = 1/(8 pi) sum_i n_i (phi_i'(r)^2 + l(l+1) phi_i(r)^2/r^2) >= 0 away from the origin.", "quantifier": "all atoms, all points", "why_tests_cant": "Universal.", "anchors": ["bfit/density.py:SlaterAtoms.positive_definite_kinetic_energy"]}
{"id": "C34", "title": "Atomic density integrates to the occupation-weighted orbital norms", "statement": "4 pi int rho(r) r^2 dr = sum_i n_i * <phi_i|phi_i>, so it is the number of electrons when the tabulated orbitals are normalized.", "quantifier": "all atoms", "why_tests_cant": "Improper integral for all data.", "anchors": ["bfit/density.py:SlaterAtoms.atomic_density"]}
{"id": "C35", "title": "Electron configuration strings are parsed to the right occupations", "statement": "For every configuration written as distinct tokens nL(count), optionally preceded by closed shells K(2) L(8) M(18) N(32), the occupation of each listed orbital is its count (closed shells filled), other orbitals are absent. Counts are the whole numbers Python's int reads; other text raises ValueError.", "quantifier": "all configurations in the file syntax", "why_tests_cant": "All strings of the grammar.", "anchors": ["bfit/_slater.py:_get_number_of_electrons_per_orbital"]}
{"id": "C36", "title": "Heavy-element configurations expand the noble-gas core", "statement": "[XE]/[RN] prefixes expand to the configuration whose occupations sum to 54/86 plus the remaining tokens; anything else raises ValueError.", "quantifier": "all tails of tokens", "why_tests_cant": "All strings of the grammar.", "anchors": ["bfit/_slater.py:_configuration_exact_for_heavy_elements"]}
{"id": "C37", "title": "Coefficient columns are attributed to the right orbital", "statement": "For a block listing consecutive orbitals n0L,(n0+1)L,... each orbital's coefficient is read from its own column; the column read is stated for every label and row.", "quantifier": "all blocks S,P,D,F of any length", "why_tests_cant": "All lengths.", "anchors": ["bfit/_slater.py:_get_column"]}
{"id": "C38", "title": "Parsing a well-formed Slater file returns exactly its contents", "statement": "For every file in the tabulated layout, the parser returns the orbitals, energies, cusps, exponents, basis labels and coefficients in the file, each coefficient list as long as its exponent list. A file without an energy line raises RuntimeError (IndexError when the value is missing), one without three numbers after it AssertionError; an orbital without electrons in the configuration raises KeyError.", "quantifier": "all well-formed files, any number of blocks/rows/columns", "why_tests_cant": "All files.", "anchors": ["bfit/_slater.py:load_slater_wfn"]}
{"id": "C39", "title": "Parsing terminates on every input file", "statement": "load_slater_wfn returns or raises for every file content.", "quantifier": "all file contents, incl. truncated files", "why_tests_cant": "Non-termination cannot be tested.", "anchors": ["bfit/_slater.py:load_slater_wfn"]}
{"id": "C40", "title": "Element lookup: case-insensitive, documented rejections, every listed ion loads", "statement": "Result depends on element.lower() only; non-alphabetic names, anion+cation and unlisted ions raise; an element listed as available cation/anion loads from its (well-formed) file.", "quantifier": "all names and flag combinations", "why_tests_cant": "All names.", "anchors": ["bfit/_slater.py:load_slater_wfn", "bfit/density.py:SlaterAtoms.__init__"]}
{"id": "C41", "title": "UGBS exponents of an element are exactly those in the file", "statement": "get_ugbs_exponents returns, per shell letter, the exponents of the element's entries in file order, ignoring other elements, case-insensitively; a name that is not a text raises AssertionError.", "quantifier": "all files made of header/exponent line pairs", "why_tests_cant": "All files.", "anchors": ["bfit/parse_ugbs.py:get_ugbs_exponents"]}
{"id": "C42", "title": "Fit integration and goodness-of-fit entries mean what the documentation says", "statement": "integrate multiplies by 4 pi r^2 iff spherical; goodness_of_fit returns [int m, int |f-m|, max|f-m|, int (f-m)^2, int KL], the first non-negative entries are >= 0 and all error entries vanish when m=f. Arrays of different sizes raise ValueError.", "quantifier": "all grids, densities, models, parameters", "why_tests_cant": "Universal.", "anchors": ["bfit/fit.py:_BaseFit.integrate", "bfit/fit.py:_BaseFit.goodness_of_fit"]}
{"id": "C43", "title": "One FPI coefficient update restores the normalization constraint", "statement": "After every update of the coefficients (unmasked points) the new coefficients sum to integral_dens exactly, whatever the previous ones were.", "quantifier": "all models, grids, densities, parameters", "why_tests_cant": "Universal identity.", "anchors": ["bfit/fit.py:KLDivergenceFPI._update_params"]}
{"id": "C44", "title": "FPI updates keep coefficients and exponents positive and finite", "statement": "From positive coefficients and exponents, every iterate of KLDivergenceFPI has finite positive coefficients and exponents.", "quantifier": "all iteration counts, all positive starts, densities and grids (given a weighted point off each center)", "why_tests_cant": "Invariant over unbounded iterations.", "anchors": ["bfit/fit.py:KLDivergenceFPI._update_params", "bfit/fit.py:KLDivergenceFPI.run"]}
{"id": "C45", "title": "FPI never increases the KL divergence", "statement": "With normalized basis functions every FPI step (coefficients, exponents or both) does not increase the grid KL divergence once the coefficients sum to at most integral_dens, so result['fun'] is non-increasing.", "quantifier": "all grids with non-negative weights, densities, atomic and molecular models, all iterations", "why_tests_cant": "Monotonicity over all iterations and inputs (an EM-type theorem).", "anchors": ["bfit/fit.py:KLDivergenceFPI._update_params", "bfit/fit.py:KLDivergenceFPI.run"]}
{"id": "C46", "title": "FPI fixed points are optimal", "statement": "If an update leaves positive coefficients unchanged then the Lagrangian gradient vanishes and the coefficients minimize KL among all non-negative coefficients with the same total; if exponents are unchanged the KL gradient in the exponents vanishes.", "quantifier": "all fixed points, all competitors", "why_tests_cant": "Global optimality quantifies over all competitors.", "anchors": ["bfit/fit.py:KLDivergenceFPI._update_params"]}
{"id": "C47", "title": "FPI run: iteration bound and result consistency", "statement": "run performs at most maxiter updates; fun has one entry per update and equals the last column of performance; the last row of performance is goodness_of_fit of the returned parameters; parameters not optimized are returned unchanged; it stops exactly at the first update whose changes meet the thresholds, or at maxiter; both flags False raises ValueError, and so do wrong numbers of parameters; anything but arrays is a TypeError.", "quantifier": "all inputs, any maxiter", "why_tests_cant": "Loop invariant.", "anchors": ["bfit/fit.py:KLDivergenceFPI.run"]}
{"id": "C48", "title": "FPI success flag means convergence", "statement": "success=True only if the parameters or the divergence met their thresholds with finite values within maxiter iterations.", "quantifier": "all runs incl. NaN and degenerate maxiter", "why_tests_cant": "All executions.", "anchors": ["bfit/fit.py:KLDivergenceFPI.run"]}
{"id": "C49", "title": "ScipyFit objective gradient is exact", "statement": "func returns (obj, d_obj) with d_obj the gradient of obj with respect to x, in all three modes (both, fixed coefficients, fixed exponents), for every measure and weights.", "quantifier": "all parameters with unmasked model, all weights, all models", "why_tests_cant": "Gradient is a limit at every point.", "anchors": ["bfit/fit.py:ScipyFit.func", "bfit/fit.py:ScipyFit.evaluate_model"]}
{"id": "C50", "title": "ScipyFit constraint function works in every mode", "statement": "const_norm is integral_dens - int model for the current parameters, in each optimization mode and each supported method.", "quantifier": "all methods x modes x parameters", "why_tests_cant": "Combination of modes.", "anchors": ["bfit/fit.py:ScipyFit.const_norm", "bfit/fit.py:ScipyFit.run"]}
{"id": "C51", "title": "ScipyFit.run returns what the optimizer found, rearranged faithfully", "statement": "Coefficients/exponents are the two halves of the optimizer's x; fixed parameters are returned unchanged; performance is goodness_of_fit of the returned parameters; bounds are respected if the optimizer respects them; the documented default measure is usable.", "quantifier": "all optimizer outcomes", "why_tests_cant": "Optimizer is arbitrary.", "anchors": ["bfit/fit.py:ScipyFit.run", "bfit/fit.py:ScipyFit.__init__"]}
{"id": "C52", "title": "Fit construction rejects invalid problems", "statement": "Negative densities, grids lacking points/integrate, spherical integration on multi-dimensional grids, zero or NaN Lagrange multipliers, mismatched points, unknown methods or measures raise the documented errors and valid ones are accepted.", "quantifier": "all argument combinations", "why_tests_cant": "All combinations.", "anchors": ["bfit/fit.py:_BaseFit.__init__", "bfit/fit.py:KLDivergenceFPI.__init__", "bfit/fit.py:ScipyFit.__init__"]}
{"id": "C53", "title": "pick-one generates n+1 extensions of the current fit", "statement": "get_next_choices returns n+1 vectors of length 2(n+1); choice i inserts one coefficient coeff_val and one exponent at position i, leaving the others in order; the exponent is a_1/factor, midpoint, or factor*a_n.", "quantifier": "all n>=1, factors, parameters", "why_tests_cant": "All sizes.", "anchors": ["bfit/greedy.py:get_next_choices"]}
{"id": "C54", "title": "pick-two generates all two-step extensions", "statement": "get_two_next_choices returns n(n+5)/2+2 vectors of length 2(n+2), each an extension of the current parameters by two functions.", "quantifier": "all n>=1", "why_tests_cant": "All sizes.", "anchors": ["bfit/greedy.py:get_two_next_choices"]}
{"id": "C55", "title": "pick-two-lose-one generates n+1-function guesses", "statement": "pick_two_lose_one returns (n+2)(n(n+5)/2+2) vectors of length 2(n+1), each a two-step extension with one function removed (same position in both halves).", "quantifier": "all n>=1", "why_tests_cant": "All sizes.", "anchors": ["bfit/greedy.py:pick_two_lose_one"]}
{"id": "C56", "title": "Generated exponents stay positive (and sorted)", "statement": "With positive exponents and factor>0 all generated exponents are positive; with ascending exponents and factor>=1 pick-one choices are ascending.", "quantifier": "all parameters", "why_tests_cant": "Universal.", "anchors": ["bfit/greedy.py:get_next_choices", "bfit/greedy.py:get_two_next_choices", "bfit/greedy.py:pick_two_lose_one"]}
{"id": "C57", "title": "remove_redundancies merges close exponents without losing weight", "statement": "Output exponents are a subsequence of the input, pairwise at least eps apart, inputs already separated are unchanged, and the total coefficient weight is preserved.", "quantifier": "all coefficient/exponent arrays, all eps", "why_tests_cant": "All clusterings incl. chains.", "anchors": ["bfit/greedy.py:remove_redundancies"]}
{"id": "C58", "title": "Local search returns the best candidate", "statement": "The best local parameter returned is the optimized candidate with the least objective value and the s/p flag tells its kind.", "quantifier": "all candidate lists, all objective values incl. NaN and huge", "why_tests_cant": "All lists and values.", "anchors": ["bfit/greedy.py:GreedyStrategy._find_best_lparams"]}
{"id": "C59", "title": "Extra choices supplied by the user are considered", "statement": "Guesses returned by add_extra_choices take part in the search.", "quantifier": "all callables", "why_tests_cant": "Needs to compare all callables.", "anchors": ["bfit/greedy.py:GreedyStrategy.run", "bfit/greedy.py:GreedyStrategy._find_best_lparams"]}
{"id": "C60", "title": "Greedy run never accepts a worse fit", "statement": "Objective values of parameters_iteration are non-increasing, result['fun'] is the objective of the last entry and the least of all; performance has one row per accepted fit.", "quantifier": "all optimizers, densities, iterations", "why_tests_cant": "Invariant over runs.", "anchors": ["bfit/greedy.py:GreedyStrategy.run"]}
{"id": "C61", "title": "Greedy run respects max_numb_funcs", "statement": "The returned model never has more than max(1,max_numb_funcs) basis functions and num_s+num_p equals the number of returned coefficients. A new object starts with one s-type function: the first parameters and the first row of errors are those of the fit with one function, and there is one row for each set of parameters.", "quantifier": "all choice functions, all runs", "why_tests_cant": "All executions.", "anchors": ["bfit/greedy.py:GreedyStrategy.run"]}
{"id": "C62", "title": "Greedy run terminates", "statement": "The main loop performs a bounded number of iterations for every behaviour of the optimizer.", "quantifier": "all optimizers incl. NaN objective", "why_tests_cant": "Termination.", "anchors": ["bfit/greedy.py:GreedyStrategy.run"]}
{"id": "C63", "title": "Greedy success flag and exit information reflect the reason of termination", "statement": "success=False exactly when stopped by the function limit or repeated failures; exit_information names the actual reason.", "quantifier": "all runs", "why_tests_cant": "All executions.", "anchors": ["bfit/greedy.py:GreedyStrategy.run", "bfit/greedy.py:GreedyStrategy._final_exit_info"]}
{"id": "C64", "title": "Greedy run can be repeated on the same object", "statement": "Calling run a second time starts from a fresh state.", "quantifier": "all histories of two runs", "why_tests_cant": "History property.", "anchors": ["bfit/greedy.py:GreedyStrategy.run", "bfit/greedy.py:GreedyStrategy.store_errors"]}
{"id": "C65", "title": "Greedy bookkeeping stays consistent", "statement": "num_s+num_p always matches the stored parameters, for every objective value the optimizer may return.", "quantifier": "all runs incl. NaN objective", "why_tests_cant": "All executions incl. NaN.", "anchors": ["bfit/greedy.py:GreedyStrategy.run"]}
{"id": "C66", "title": "Least-squares one-function start is optimal", "statement": "_solve_one_function_weight returns (exp(A), -B) with (A,B) minimizing sum_i w_i (ln f_i - A - B r_i^2)^2 for non-negative weights; the best of three weightings under the true objective is returned.", "quantifier": "all grids, densities, weights, competitors", "why_tests_cant": "Global optimality.", "anchors": ["bfit/greedy.py:GreedyLeastSquares._solve_one_function_weight", "bfit/greedy.py:GreedyLeastSquares.get_best_one_function_solution"]}
{"id": "C67", "title": "KL one-function start is optimal", "statement": "get_best_one_function_solution of GreedyKLFPI returns the exponent minimizing the KL divergence among normalized single s-type Gaussians with coefficient integral_dens.", "quantifier": "all grids/densities, spherical or not, all competitors", "why_tests_cant": "Global optimality.", "anchors": ["bfit/greedy.py:GreedyKLFPI.get_best_one_function_solution"]}
{"id": "C68", "title": "NNLS matrix matches the model", "statement": "The matrix used for non-negative least squares times a coefficient vector equals the model density for these coefficients and exponents.", "quantifier": "all exponents, coefficient vectors, both normalize settings", "why_tests_cant": "Universal.", "anchors": ["bfit/greedy.py:GreedyLeastSquares._create_cofactor_matrix"]}
{"id": "C69", "title": "Greedy run always reports an exit reason", "statement": "run never ends with the internal RuntimeError about missing exit information.", "quantifier": "all runs incl. NaN/infinite objective", "why_tests_cant": "All executions.", "anchors": ["bfit/greedy.py:GreedyStrategy._final_exit_info"]}
{"id": "C70", "title": "Tsallis objective stays finite at masked points", "statement": "TsallisDivergence.evaluate returns finite values for every accepted alpha when the density is positive and the model is finite and non-negative, also where the model is masked.", "quantifier": "all accepted alpha, all densities and models", "why_tests_cant": "Needs every alpha and every masked point.", "anchors": ["bfit/measure.py:TsallisDivergence.evaluate"]}
{"id": "C71", "title": "Tsallis divergence obeys a Gibbs inequality for every alpha", "statement": "If no point is masked, the integrated Tsallis divergence is >= integral f - integral g for every accepted alpha (below and above one) and every quadrature with non-negative weights; in particular it is >= 0 when the integrals agree.", "quantifier": "all accepted alpha, grids, positive densities and models", "why_tests_cant": "Inequality over all functions and all alpha.", "anchors": ["bfit/measure.py:TsallisDivergence.evaluate"]}
{"id": "C72", "title": "Asking a measure for derivatives never changes its values", "statement": "For each of the three measures evaluate(f,g,deriv=True)[0] equals evaluate(f,g,deriv=False), for all arrays including non-finite entries, and the same exception is raised otherwise.", "quantifier": "all measures, all arguments", "why_tests_cant": "All inputs including NaN and infinities.", "anchors": ["bfit/measure.py:SquaredDifference.evaluate", "bfit/measure.py:KLDivergence.evaluate", "bfit/measure.py:TsallisDivergence.evaluate"]}
{"id": "C73", "title": "Returned density, derivative and kinetic energy obey the von Weizsaecker bound", "statement": "At every point (rho')^2 <= 8 rho tau for the arrays returned by derivative_density, atomic_density(total) and positive_definite_kinetic_energy.", "quantifier": "all atoms with non-negative occupations, all points including the origin", "why_tests_cant": "Inequality between three functions at every point for all data.", "anchors": ["bfit/density.py:SlaterAtoms.derivative_density", "bfit/density.py:SlaterAtoms.atomic_density", "bfit/density.py:SlaterAtoms.positive_definite_kinetic_energy"]}
{"id": "C74", "title": "Atomic densities vanish at infinity", "statement": "In every mode the density returned by atomic_density tends to 0 as r goes to infinity.", "quantifier": "all atoms, all modes", "why_tests_cant": "Limit statement.", "anchors": ["bfit/density.py:SlaterAtoms.atomic_density"]}
{"id": "C75", "title": "Density derivative at the nucleus", "statement": "derivative_density at r=0 is the slope of the density there (cusp).", "quantifier": "all atoms", "why_tests_cant": "Needs the exact derivative at the origin.", "anchors": ["bfit/density.py:SlaterAtoms.derivative_density"]}
{"id": "C76", "title": "An FPI update is the documented self-consistent equation", "statement": "update_params returns c_k A_k / lambda and (3/2 or 5/2) A_k / B_k with A_k = int (f/m) b_k, B_k = int (f/m) b_k r^2 and lambda = int f / integral_dens, and leaves parameters that are not optimized alone.", "quantifier": "all grids, densities, atomic and molecular models, parameters, flags", "why_tests_cant": "Formula for all inputs.", "anchors": ["bfit/fit.py:KLDivergenceFPI._update_params"]}
{"id": "C77", "title": "A first greedy KL run returns finite positive parameters", "statement": "GreedyKLFPI.run on a fresh object returns finite positive coefficients and exponents of the reported number and a finite objective, or raises TypeError because some parameters it tried have an objective of at least 10^10. The latter cannot happen when 1022 times the integral of the density is below 10^10, and the returned objective is then at most that product.", "quantifier": "all grids with non-negative weights, positive densities, ways to choose, factors, thresholds, limits, extra choices", "why_tests_cant": "All inputs and all intermediate parameters of the run.", "anchors": ["bfit/greedy.py:GreedyKLFPI", "bfit/greedy.py:GreedyStrategy.run"]}
{"id": "C78", "title": "A first greedy least-squares run returns finite positive parameters", "statement": "The same for GreedyLeastSquares.run, for any optimizer that returns values within the given bounds.", "quantifier": "all grids, positive densities, optimizers, ways to choose, factors, thresholds, limits, extra choices", "why_tests_cant": "All inputs and all optimizers.", "anchors": ["bfit/greedy.py:GreedyLeastSquares", "bfit/greedy.py:GreedyStrategy.run"]}
{"id": "C79", "title": "Atomic densities accept exactly data of consistent sizes", "statement": "atomic_density, derivative_density and positive_definite_kinetic_energy return on 1-D points exactly when every orbital has exponents, quantum numbers and coefficients of matching number and there is one occupation per orbital (and matching energies for the core and valence modes); otherwise they raise KeyError for a missing entry, ValueError for sizes or IndexError for missing energies.", "quantifier": "all data, all points incl. non-finite ones", "why_tests_cant": "All shapes of data.", "anchors": ["bfit/density.py:SlaterAtoms.phi_matrix", "bfit/density.py:SlaterAtoms.atomic_density", "bfit/density.py:SlaterAtoms.positive_definite_kinetic_energy", "bfit/density.py:SlaterAtoms.derivative_density"]}
{"id": "C80", "title": "Every shipped data file loads exactly and has the right number of electrons", "statement": "For each of the 24 files in bfit/data, SlaterAtoms with the element's symbol in any case returns exactly the contents of the file, and the occupations sum to the electrons of the atom or ion.", "quantifier": "all shipped files, all spellings of the symbol, any reading of the numbers", "why_tests_cant": "Tests compare a few atoms; here the whole text of each file is checked for every number in it.", "anchors": ["bfit/_slater.py:load_slater_wfn", "bfit/density.py:SlaterAtoms.__init__", "bfit/data"]}
{"id": "C81", "title": "A well-formed data file yields the documented density, derivative and kinetic energy of its subshells", "statement": "For every well-formed data file the object built from it returns the density of exactly the subshells written in the file (occupation, coefficients, exponents, quantum numbers), its exact derivative, its positive-definite kinetic energy density, and the density integrates to the sum of occupation times orbital norm.", "quantifier": "all well-formed files, all points", "why_tests_cant": "All files and points; tests compare a few numbers of a few atoms.", "anchors": ["bfit/density.py:SlaterAtoms", "bfit/_slater.py:load_slater_wfn"]}
{"id": "C82", "title": "The density of every shipped atom and ion integrates to its number of electrons", "statement": "Whatever atom or ion the library loads, 4 pi times the integral of r^2 rho(r) over all r > 0 equals the number of electrons within 5e-7 relative.", "quantifier": "all names, charges and shipped files", "why_tests_cant": "The integral is improper and exact; tests use a quadrature for some atoms.", "anchors": ["bfit/density.py:SlaterAtoms", "bfit/data"]}
{"id": "C83", "title": "The kinetic energy density integrates to the kinetic energy of the orbitals", "statement": "4 pi times the integral of r^2 tau(r) over all r > 0 is the sum over subshells of occupation times the kinetic energy of the orbital in closed form.", "quantifier": "all atoms with positive exponents", "why_tests_cant": "Improper integral for all data.", "anchors": ["bfit/density.py:SlaterAtoms.positive_definite_kinetic_energy"]}
{"id": "C84", "title": "The kinetic energy density of every shipped atom and ion integrates to the kinetic energy in its file", "statement": "Whatever atom or ion the library loads, 4 pi times the integral of r^2 tau(r) equals the kinetic energy T read from its file within 5e-7 relative.", "quantifier": "all names, charges and shipped files", "why_tests_cant": "The integral is improper and exact; tests use a quadrature for some atoms.", "anchors": ["bfit/density.py:SlaterAtoms.positive_definite_kinetic_energy", "bfit/data"]}
{"id": "C85", "title": "The universal Gaussian exponents of every element are complete, positive and descending", "statement": "get_ugbs_exponents returns for every element of the file the S, P, D and F exponents in the numbers its title announces, all positive and strictly descending; every element that the header of the file names has exponents.", "quantifier": "all elements, all spellings, the whole shipped file", "why_tests_cant": "The whole file of 9198 lines is checked for every element.", "anchors": ["bfit/parse_ugbs.py:get_ugbs_exponents", "bfit/data/ygbs"]}
{"id": "C86", "title": "GreedyKLFPI uses the settings it was given, and its result solves the self-consistent equations", "statement": "GreedyKLFPI is constructed exactly when the grid, the density and the choice name are acceptable, with normalized functions starting from one s-type function, and keeps local and global thresholds and limits apart. Every optimization is the fixed point iteration from the given parameters under the respective settings. Every accepted fit after the first stems from a guess by a local and then a global optimization. The result of a first run is the one-function start or the value of the documented equations at positive parameters, and its density integrates over space to the sum of its coefficients: the requested number of electrons, provided those parameters masked no point.", "quantifier": "all grids, densities, settings, random numbers, extra guesses", "why_tests_cant": "Any number of rounds and iterations; an integral over space.", "anchors": ["bfit/greedy.py:GreedyKLFPI", "bfit/greedy.py:GreedyStrategy.run"]}
{"id": "C87", "title": "GreedyLeastSquares uses the settings it was given", "statement": "GreedyLeastSquares is constructed exactly when the arguments are acceptable to AtomicGaussianDensity and ScipyFit and the choice name is known. Every optimization asks non-negative least squares for coefficients at the given exponents, starts the minimizer from them with squared difference as objective, bounds 1e-12, the local or global limit and tolerance, and the constraint exactly if requested, and returns what the minimizer found.", "quantifier": "all grids, densities, settings, solvers", "why_tests_cant": "The solvers are arbitrary.", "anchors": ["bfit/greedy.py:GreedyLeastSquares"]}
{"id": "C88", "title": "Coefficient updates approach the best divergence", "statement": "With fixed exponents the divergence after n coefficient updates exceeds that of any other non-negative coefficients with no larger sum by at most (integral of the density) ln(N / smallest start) / (n + 1), so it tends to the least value. A run with divergence threshold eps takes n iterations only if (n-2)(n+1) eps <= 2 (integral of the density) ln(N / smallest start), and reports success if its limit allows more.", "quantifier": "all grids, positive densities, function lists, positive starting coefficients, thresholds and limits; iterates that mask no point", "why_tests_cant": "Tests watch single runs; the rate holds for every run and against every rival.", "anchors": ["bfit/fit.py:KLDivergenceFPI", "bfit/fit.py:_BaseFit"]}
{"id": "C89", "title": "The fixed point iteration stops by itself", "statement": "A run with a positive divergence threshold takes a number of iterations bounded independently of maxiter, and reports success if maxiter is larger.", "quantifier": "normalized functions, any optimized parameters; iterates that mask no point", "why_tests_cant": "A test sees only finitely many limits; a run that never stops looks like a slow one.", "anchors": ["bfit/fit.py:KLDivergenceFPI"]}
{"id": "C90", "title": "Grid integrals in floating point keep sign and order and are accurate", "statement": "The computed integral of a radial or cubic grid differs from the exact sum by at most a bound of a few units of roundoff per level of the summation times the sum of the absolute terms, plus underflow; a non-negative integrand never gives a negative integral and a larger integrand never a smaller one.", "quantifier": "all arrays of floating point numbers without overflow, all orders of summation, all binary formats", "why_tests_cant": "A test tries a few arrays on one machine; the order of the additions depends on the NumPy build.", "anchors": ["bfit/grid.py:_BaseRadialGrid.integrate", "bfit/grid.py:CubicGrid.integrate", "bfit/fit.py:_BaseFit.integrate"]}
{"id": "C91", "title": "Model values in floating point are close to the exact ones and not negative", "statement": "The value of a model of s-type functions computed in floating point differs from the exact linear combination by a few units of roundoff times the sum of the absolute coefficients, at any distance; it is not negative for non-negative coefficients and exponents.", "quantifier": "all coefficients, non-negative exponents, radii; s-type, not normalized; all orders of summation, with or without fused multiply-add", "why_tests_cant": "The error depends on rounding of every operation and on the exponential of the library.", "anchors": ["bfit/model.py:AtomicGaussianDensity.evaluate", "bfit/model.py:AtomicGaussianDensity._eval_s"]}
{"id": "C92", "title": "Rounded fixed point updates keep the coefficients non-negative and their sum", "statement": "Updated coefficients are never negative in floating point; without underflow their sum is the wanted integral up to a number of roundings that does not depend on the number of updates.", "quantifier": "all non-negative data, all numbers of updates, all orders of summation; exponents fixed, no masked point", "why_tests_cant": "Drift shows only after many updates and depends on the data.", "anchors": ["bfit/fit.py:KLDivergenceFPI._update_params", "bfit/fit.py:KLDivergenceFPI.run"]}
{"id": "C93", "title": "The greedy classes fit densities on every kind of grid they document", "statement": "A first run of GreedyKLFPI or GreedyLeastSquares on a radial or cubic grid with a positive density returns a model with finite positive parameters (or fails because some parameters cost 10^10 or more).", "quantifier": "all grids, positive densities, settings and runs", "why_tests_cant": "Needs grids the tests do not use with these classes.", "anchors": ["bfit/greedy.py:GreedyLeastSquares.get_best_one_function_solution", "bfit/greedy.py:GreedyKLFPI.get_best_one_function_solution"]}
{"id": "C94", "title": "Coefficient updates converge to best coefficients", "statement": "With fixed exponents the coefficients themselves converge; the limit is non-negative, has the wanted sum and the least divergence of all such coefficients. Two different starts lead to the same fitted density at every point of positive weight.", "quantifier": "all grids, positive densities, function lists and positive starting coefficients; iterates that mask no point", "why_tests_cant": "A statement about infinitely many updates, and about all starts.", "anchors": ["bfit/fit.py:KLDivergenceFPI", "bfit/fit.py:_BaseFit"]}
{"id": "C95", "title": "The shipped fitted models load, are positive and have the number of electrons of their atom", "statement": "Reading kl_fpi_results.json or kl_slsqp_results.json as in README gives for every element from hydrogen to xenon as many positive coefficients and exponents as the universal Gaussian basis set has S and P exponents. The normalized model built from them is positive at every radius and integrates to the atomic number within 2e-9 (fixed point iteration) or 1.2e-4 (SLSQP; 3e-5 but for xenon). Any other name raises KeyError; a file cut off anywhere before its end, like every text not in the format, raises ValueError.", "quantifier": "all elements and names, both files and all their first parts, any reading of numbers with the accuracy of double precision, all radial points", "why_tests_cant": "Tests do not read these files; the integral is improper and exact.", "anchors": ["bfit/data/kl_fpi_results.json", "bfit/data/kl_slsqp_results.json", "README.md:121-134", "bfit/model.py:AtomicGaussianDensity"]}
{"id": "C96", "title": "A density that is zero at a grid point ends the fixed point iteration after two updates", "statement": "KLDivergenceFPI accepts densities with zeros, and its updates keep the parameters positive for them.  The recorded divergence of an update is NaN exactly when the model exceeds the mask value at a point where the density is zero.  A NaN entry ends the run (only the second update may follow a NaN at the first), and the result is reported as a failure when two or more updates were made.  With the default mask value 0 and an s-type function in the model this happens for every such density and every start.", "quantifier": "Every density, grid that hands NaN on (radial with at least two points, cubic), model, positive start, mode, threshold and iteration limit; exact arithmetic.", "why_tests_cant": "The tests fit strictly positive densities; a zero changes the control flow for all starts at once.", "anchors": ["bfit/fit.py:213-238", "bfit/fit.py:353-440", "bfit/measure.py:211-226", "bfit/grid.py:56-81", "bfit/grid.py:388-413"]}
{"id": "C97", "title": "The four steps of README fit every density", "statement": "Setting up a radial grid, an atomic model on its points and KLDivergenceFPI succeeds for every ascending grid and every non-negative density with r^2 f of positive integral; a run from positive guesses of the right length returns positive parameters and guesses of another length raise ValueError.  The example as printed gives four coefficients for five functions, so it raises ValueError for every density.", "quantifier": "Every ascending radial grid, non-negative density, number of functions, normalization, spherical flag, mask value >= 0, positive guess, mode, thresholds and iteration limit; the printed example for every density of 100 values.", "why_tests_cant": "README is not run by the tests, and a run shows one density only.", "anchors": ["README.md:150-196", "bfit/fit.py:213-440", "bfit/grid.py:84-119", "bfit/model.py:AtomicGaussianDensity"]}
{"id": "C98", "title": "With the archive of data files every atom and ion on offer can be loaded", "statement": "data.tar holds a file for every neutral atom from hydrogen to lawrencium and every anion and cation the loader offers.  With these files in place each of them is loaded under the symbol in any case, its occupations add up to the atomic number minus the charge, its exponents are positive and its density is that of the subshells of the file.  The archived file of the silver anion is itself an archive of the other anions, so no data is returned for it; the cesium cation is read in the layout of heavy elements and fails.", "quantifier": "all elements, ions and spellings; any reading of decimal numbers", "why_tests_cant": "Only 24 of the 199 files are in the folders the tests use.", "anchors": ["bfit/_slater.py:load_slater_wfn", "bfit/density.py:SlaterAtoms.__init__"]}
{"id": "C99", "title": "The fits of the published tables run for every element with exponents", "statement": "The scripts table_1_and_2.py and table_5.py fit densities and kinetic energy densities on a Clenshaw grid of about eleven thousand points, starting from the shipped exponents.  For every element of the exponent file, with the data files of the archive, both fits end without an error: the coefficients and exponents are positive and as many as the exponents of the s and p shells, and there is a last row of measures to print.  The point is that the density is zero at fewer points than the quantum numbers of one subshell add up to, whatever the coefficients, so it cannot vanish on the grid.", "quantifier": "all elements of the exponent file and spellings; any reading of decimal numbers; in the general theorem all data files, exponents, grids and factors", "why_tests_cant": "No test runs the scripts, and each fit takes minutes per element.", "anchors": ["bfit/fit.py:KLDivergenceFPI.run", "bfit/density.py:SlaterAtoms.atomic_density", "bfit/density.py:SlaterAtoms.positive_definite_kinetic_energy", "bfit/grid.py:ClenshawRadialGrid", "bfit/parse_ugbs.py:get_ugbs_exponents"]}
{"id": "C100", "title": "Floating point values of normalized and p-type models are close to the exact ones", "statement": "The value of an atomic or molecular model computed in floating point, with s-type and p-type functions, normalized or not, differs from the documented linear combination by a few units of roundoff times the sizes of the terms, plus underflow; it is not negative for non-negative parameters; with exact arithmetic it is the linear combination.", "quantifier": "all coefficients, non-negative exponents, radii, both values of normalized, all mixtures of s-type and p-type functions, all orders of summation, with or without fused multiply-add, all binary formats", "why_tests_cant": "The error depends on rounding of every operation, on the exponential and power of the library and on the order of the additions in the matrix product.", "anchors": ["bfit/model.py:AtomicGaussianDensity.evaluate", "bfit/model.py:AtomicGaussianDensity._eval_s", "bfit/model.py:AtomicGaussianDensity._eval_p", "bfit/model.py:MolecularGaussianDensity.evaluate"]}
{"id": "C101", "title": "Fits of coefficients and exponents in floating point never break down, keep the sum and bound the exponents", "statement": "In floating point no coefficient or exponent of a fixed point fit ever becomes negative. Without underflow every pass succeeds and keeps all parameters positive, the coefficients add up to N after each pass up to a number of roundings independent of the number of passes, and each new exponent lies between 3/2 (5/2 for p-type) over the largest and the smallest squared distance of a point to the center and is that of the formula up to roundings.", "quantifier": "all positive starting parameters, non-negative data, numbers of passes, grids, mixtures of s-type and p-type functions, orders of summation", "why_tests_cant": "A division by zero or a drift may need many passes and special data.", "anchors": ["bfit/fit.py:KLDivergenceFPI.run", "bfit/fit.py:KLDivergenceFPI._update_params"]}
{"id": "C102", "title": "The gradient given with a masked objective misses the masked part of the model", "statement": "Where the mask applies to some points, the objective of ScipyFit with KLDivergence is the integral of f ln(f/g) over the other points, and the gradient returned with it differs from the gradient of the objective by exactly the derivative of the integral of the model over the masked points; for a coefficient the difference lies between 0 and mask/c_k times the weight of the masked points, and is not 0 if a masked point has weight.", "quantifier": "all parameters and weights, all three modes, all mask values, positive densities, model values not at the borders of the mask", "why_tests_cant": "The difference is too small for a finite-difference test with the default mask, and no test uses a large one.", "anchors": ["bfit/fit.py:ScipyFit.func", "bfit/measure.py:KLDivergence.evaluate"]}
{"id": "C103", "title": "The scripts of tables 3 and 4 set up the described fits and end with a result", "statement": "For every element of the exponent file the scripts table_3.py and table_4.py build a fitting object with the density of the element, the trapezoidal weights with 4 pi r^2 and the Gaussian functions of the universal exponents; the start has the number of electrons as sum of the coefficients and lies within the bounds of the optimizer; with any optimizer that keeps its bounds the script ends with the halves of the returned vector and the measures of that model; the least-squares objective has its exact gradient for all parameters.", "quantifier": "all elements of the exponent file, all optimizers that keep the bounds, all grids, measures and exponents in the general form", "why_tests_cant": "No test runs the scripts, and each run takes minutes.", "anchors": ["examples/table/table_3.py", "examples/table/table_4.py", "bfit/fit.py:ScipyFit.__init__", "bfit/fit.py:ScipyFit.run", "bfit/grid.py:ClenshawRadialGrid.__init__", "bfit/parse_ugbs.py:get_ugbs_exponents"]}
{"id": "C104", "title": "Updates with masked points miss the constraint and still descend", "statement": "When the mask applies to some points, an update of the coefficients by KLDivergenceFPI makes them sum to N plus N over the integral of the density times the difference of the integrals of model and density over the masked points; so the sum can be off by about half. Every update of normalized functions lowers the divergence over the used points plus the multiplier times the sum of the coefficients less the integral of the model over the masked points, and keeps it only when no parameter changes; coefficients that an update leaves unchanged minimize it for their exponents. The reported values are the divergences over the points used; while the same points stay masked none exceeds an earlier one by more than twice the largest integral the mask can hide.", "quantifier": "all grids with non-negative weights, positive densities, positive parameters, all mask values, all modes, every iterate", "why_tests_cant": "Tests check the sum of coefficients and the descent on small grids where no point is masked, with tolerances.", "anchors": ["bfit/fit.py:KLDivergenceFPI._update_params", "bfit/fit.py:KLDivergenceFPI.run", "bfit/measure.py:KLDivergence.evaluate"]}
{"id": "C105", "title": "The scripts of the AtomDB fits and of the beryllium notebook end with the results they describe", "statement": "For every element of the exponent file and any finite density values, negative ones included, a round of examples/atomdb_db.py ends as long as the density with negative values replaced by zero has a positive trapezoid integral of r^2 f. The stored coefficients and exponents are positive and split at the number of s-type functions. The stored row holds the measures of the model with the stored parameters, and the relative errors divide by the integrals of the density, its largest value and the integral of its square. The relative error of the divergence is NaN as soon as the density is zero at one grid point. The cells of examples/atomic_density.ipynb end for the archived beryllium file with eight positive coefficients and exponents; column 3 of performance, plotted there as the Kullback-Leibler value, is the integral of the squared difference; the printed sum of the coefficients is 4 when no point of the last model but one is masked, and at most 4 (1 + 2^-1022) always.", "quantifier": "for all elements of the exponent file, all Clenshaw grids without further points, all finite density values with something left to fit; for the archived data files and the guesses of the notebook", "why_tests_cant": "AtomDB is not installed in the test environment and the notebook is not run by the tests; tests fix one density", "anchors": ["examples/atomdb_db.py", "examples/atomic_density.ipynb", "examples/table/table_1_and_2.py", "bfit/fit.py:KLDivergenceFPI.run", "bfit/fit.py:_BaseFit.goodness_of_fit", "bfit/grid.py:ClenshawRadialGrid.__init__", "bfit/parse_ugbs.py:get_ugbs_exponents"]}
{"id": "C106", "title": "The parser's text functions mean what Python's regular expressions and string methods mean", "statement": "On lines without line breaks the numbers of the energy line are those of re.findall with [= -]\\d+.\\d+, orbital headers, rows and counts in parentheses are found as by a backtracking matcher on the patterns of the code, a missing count is an AttributeError. strip, split and split(c) return the unique results of their definitions. The configuration of a heavy element is the full core followed by the text between the first core symbol and the next one or the end. The column of an orbital, and every error of it, is given for all texts.", "quantifier": "all ASCII texts", "why_tests_cant": "A test can only try some lines; the order in which a matcher backtracks matters for lines outside the data files.", "anchors": ["bfit/_slater.py:load_slater_wfn", "bfit/_slater.py:_get_number_of_electrons_per_orbital", "bfit/_slater.py:_get_column", "bfit/_slater.py:_configuration_exact_for_heavy_elements"]}
{"id": "C107", "title": "The Clenshaw grid has the documented points", "statement": "The points are those of the documentation: (1/2Z)(1 - cos(pi p/400)) for the core, 25(1 - cos(pi p/600)) for the rest, and the further points, in ascending order.", "quantifier": "all atomic numbers, numbers of points and further points", "why_tests_cant": "Tests compare with the formula of the code for two grids.", "anchors": ["bfit/grid.py:ClenshawRadialGrid.__init__", "bfit/grid.py:ClenshawRadialGrid._get_points"]}
{"id": "C108", "title": "The guesses of a greedy pass change one type of function", "statement": "Every guess of a pass consists of the present parameters of one type of function and a guess of the choice function for the other type, in the order of the model; without p-type functions the three guesses are draws from [0,1), draws moved to [1,10) and draws moved to [10,100).", "quantifier": "all parameters, numbers of functions, choice functions and random numbers", "why_tests_cant": "The order of four parts of unequal length shows only with both types present.", "anchors": ["bfit/greedy.py:GreedyStrategy.run"]}
{"id": "C109", "title": "The greedy notebook ends", "statement": "The shipped beryllium file is read as its two orbitals, whose density is positive at every radius, and 4 pi r^2 times the density is at most 2304. On a radial grid whose points may repeat, a first GreedyKLFPI run on a positive density returns positive parameters as soon as 1022 times the trapezoid integral of the density is below 10^10. The cells of examples/greedy_atomic_density.ipynb therefore return at most four functions with positive coefficients and exponents. If the result has no p-type functions, the last cell evaluates the model with them; otherwise it raises ValueError, because the model is built with num_s only.", "quantifier": "for all ascending radial grids with two different points and all positive densities; for the notebook all ways to convert decimals exactly and all positive random draws", "why_tests_cant": "The notebook is not run by the tests, its run depends on random draws, and the positivity of the density concerns all radii", "anchors": ["examples/greedy_atomic_density.ipynb", "bfit/greedy.py:GreedyKLFPI", "bfit/greedy.py:GreedyStrategy.run", "bfit/data/neutral/be.slater"]}
{"id": "C110", "title": "Functions that start alike never separate, as those on the hydrogens of the molecular notebook", "statement": "In a fixed point fit two functions of the same type on the same center with equal start exponents keep equal exponents and the quotient of their coefficients for every number of iterations; the fit without the second one, started with the sum of the coefficients, goes through the same model values. The cells of examples/molecular_density.ipynb, which start the three functions of each hydrogen alike, return positive parameters after at most 15 iterations, the three functions of each hydrogen stay equal, the model has the values of one with a single function per hydrogen, and the column plotted as divergence is the integral of the squared difference.", "quantifier": "all fits, layouts, masks, thresholds and numbers of iterations; all points, weights, densities and nuclei of the notebook where every nucleus sees a point of positive weight and density away from it", "why_tests_cant": "Tests do not start two functions alike, and the notebook is not tested.", "anchors": ["bfit/fit.py:KLDivergenceFPI._update_params", "bfit/fit.py:KLDivergenceFPI.run", "bfit/model.py:MolecularGaussianDensity", "examples/molecular_density.ipynb"]}
{"id": "C111", "title": "A fit of a shipped atom keeps its number of electrons", "statement": "For every shipped atom and ion (cs cation excluded, its file does not parse) and every eps > 0: on a uniform grid from 0 to b with n points, b and n large enough, 4 pi r^2 times the density the library evaluates integrates by the library's own integration to the number of electrons within 5e-7 relative plus eps; and every fixed point run of the README steps with normalized functions and spherical integration returns positive parameters whose coefficients add up to that number within the same error, if the model of its last update is masked nowhere.", "quantifier": "all shipped atoms and ions, spellings of the name, eps, large grids, numbers of functions, masks, positive starts, options, thresholds and iteration limits", "why_tests_cant": "Tests use one atom, one grid and a tolerance of 1e-2 or so.", "anchors": ["bfit/density.py:SlaterAtoms", "bfit/grid.py:UniformRadialGrid", "bfit/fit.py:KLDivergenceFPI.run", "bfit/data"]}
{"id": "C112", "title": "The Tsallis divergence accepts a NaN and an infinite order and is useless with them", "statement": "The constructor of TsallisDivergence accepts NaN and infinity besides the non-negative orders away from 1, every other order is a ValueError. With order infinity a value is 0 where the density does not exceed the model or is masked and NaN elsewhere, and the derivative is minus infinity, -1 or 0; with order NaN all values are NaN and the derivative is -1 where density and model are equal and NaN elsewhere. With a finite order the values are those of C17.", "quantifier": "all orders, masks, densities and models", "why_tests_cant": "Tests use a few finite orders.", "anchors": ["bfit/measure.py:TsallisDivergence"]}
{"id": "C113", "title": "The .npz files hold the same fitted models as the JSON files, and what np.savez writes is read back", "statement": "For named arrays of 64-bit integers or floats, the archive written by np.savez gives back under each name its array and KeyError under every other name; a word of a float array is the IEEE double with these bits; with one byte of an array changed this array is not read any more and the others are. Archives of stored files with any extra fields, comments, dates and attributes give the bytes of each file. Both shipped .npz files are such archives. Read as in README, each gives for every element from hydrogen to xenon exactly the numbers of its JSON file with the decimal numbers rounded to double precision, so as many positive coefficients and exponents as the universal Gaussian basis set has, with the sum within 2e-9 (fixed point iteration) or 1.2e-4 (SLSQP) of the atomic number; any other element raises KeyError.", "quantifier": "all lists of named arrays (round trip); all elements and names, both files", "why_tests_cant": "Tests do not read these files.", "anchors": ["bfit/data/kl_fpi_results.npz", "bfit/data/kl_slsqp_results.npz", "README.md:98-118"]}
{"id": "C114", "title": "Slater densities in floating point are never negative and close to the formulas", "statement": "With every operation rounded, sums taken in any order and products fused or not, the total, valence and core density, the derivative of the density and the kinetic energy density that SlaterAtoms computes differ from the formulas by at most explicit bounds: the roundings of each Slater function and of the sums, relative to the terms that are added, the errors of the library functions, and underflow. Densities and kinetic energy densities are never negative however the orbitals cancel. The highest orbital has its full occupation as valence weight and none as core weight. With exact arithmetic the results are the formulas. In double precision the density of hydrogen at distance 1 is off by less than 10/2^53.", "quantifier": "all atoms, distances, binary formats, orders of summation, libraries with the stated accuracy", "why_tests_cant": "Tests compare a few atoms on a few points to 1e-6 or so; they cannot show a bound for all atoms and all libraries.", "anchors": ["bfit/density.py:246-250", "bfit/density.py:291-299", "bfit/density.py:346-359", "bfit/density.py:400-408", "bfit/density.py:425-449", "bfit/density.py:466-468"]}
{"id": "C115", "title": "Measures, objectives and the quality of a fit in floating point", "statement": "With every operation rounded, the squared difference, the Kullback-Leibler and the Tsallis integrand and their derivatives differ from the formulas by at most explicit bounds, and so do the objective of ScipyFit and every entry of its gradient with each of the three ways of integrating: errors of the integrand are carried along and the roundings of the rule come on top. Squared differences are never negative, the Kullback-Leibler integrand has the sign of f - g and is 0 where the model is masked, and all three objectives are exactly 0 at a perfect fit. The computed Kullback-Leibler objective is below the difference of the integrals of density and model by the bound at most. The distances of goodness_of_fit are never negative, 0 for equal functions, and the largest deviation has one rounding. Exponents alpha - 1 are exact for orders between 1/2 and 2. With exact arithmetic the results are the formulas.", "quantifier": "all values, weights, grids, binary formats, orders of summation, libraries with the stated accuracy", "why_tests_cant": "Tests compare a few arrays to 1e-8 or so; they cannot show signs, exact zeros or bounds for all values.", "anchors": ["bfit/measure.py:110-117", "bfit/measure.py:210-228", "bfit/measure.py:342-349", "bfit/fit.py:145-147", "bfit/fit.py:183-192", "bfit/fit.py:718-726"]}
{"id": "C116", "title": "Floating-point formats with overflow, infinities and NaN", "statement": "Computed with IEEE 754 doubles or in any wider binary format, such as the extended or quadruple precision that is the default of the radial grids, integrals on radial, cubic and spherical grids, measures, objectives, gradients and updated coefficients that come out finite have exactly the values of the rounded model without overflow, so that the bounds proved there hold for them. They do come out finite when every intermediate result is below the overflow threshold; a negative value of the model gives the large value of the Kullback-Leibler measure at all points, whatever the density. Integrals do not overflow when the sizes of points and values and the number of points stay below an explicit limit; then the integral on a radial grid is finite and within the error bound of the exact one. Larger values can give infinity although the integral is a double. Doubles keep their values in every wider format. The quotient of density and model never overflows: where it would, the division of masked arrays hides it and the value for masked points takes its place. The least squares objective is not negative unless it is infinite or NaN.", "quantifier": "all formats with at least 53 digits and exponents up to at least 1024, all numbers including signed zeros, infinities and NaN, all orders of summation, numbers of points below 2^digits", "why_tests_cant": "Overflow needs values that no test uses, and no test tells a finite result with lost digits from a right one.", "anchors": ["bfit/grid.py:59-77", "bfit/grid.py:408-413", "bfit/fit.py:145-147", "bfit/fit.py:277-285", "bfit/fit.py:299", "bfit/fit.py:718-726", "bfit/measure.py:110-117", "bfit/measure.py:210-228", "bfit/measure.py:342-349"]}
{"id": "C117", "title": "Printing does not change a fit, and the printed tables show what the result holds", "statement": "With disp=True a run has the same result and errors as without. The table of the fixed point iteration has one row for each iteration with its number, its row of performance and the changes of coefficients, exponents and divergence; that of ScipyFit one line for each vector given to the callback with the errors of the parameters it stands for; that of a greedy run the first fit and then a row for each round with the numbers of functions, the errors of the last accepted fit and the last change of the objective, ending with the configuration returned. The lines below give the returned success, coefficients and exponents. Rows are as wide as the rules where the numbers fit, except that the last column of the fixed point table is one character narrower than its name.", "quantifier": "all fits, starts, options, optimizers, strategies with five errors (both of the library) and ways to write numbers; for ScipyFit optimizers that give the callback vectors whose errors exist", "why_tests_cant": "Tests run with disp=True on few fits and do not look at the output.", "anchors": ["bfit/fit.py:KLDivergenceFPI.run", "bfit/fit.py:ScipyFit.run", "bfit/greedy.py:GreedyStrategy.run", "bfit/greedy.py:GreedyStrategy._print_header"]}
{"id": "C118", "title": "Gaussian models and fixed point fits in floating-point formats with overflow", "statement": "Computed with IEEE 754 doubles or in any wider binary format, with dot products that may fuse multiplications and additions, the value of a model of s-type and p-type functions, normalized or not, is exactly that of the rounded model without overflow whenever it is finite, also where an exponent overflows and the exponential is zero; so it is within the error bound of the documented linear combination, and not negative when coefficients and exponents are not. It is finite when distances, normalization constants, coefficients and the number of functions stay below an explicit limit. At distances whose square overflows, p-type functions are infinite or NaN whatever the exponent, s-type functions with exponent zero too, and s-type functions with a positive exponent are zero. After any number of passes of the fixed point method in which nothing used is infinite, NaN or hidden, coefficients and exponents are those of the rounded method, and none is negative. A library that rounds correctly meets all that is asked of the library in every format.", "quantifier": "all formats with at least 53 digits and exponents up to at least 1024, all numbers including signed zeros, infinities and NaN, all libraries meeting the stated conditions, all orders of summation and choices of fused products, all numbers of functions, points and passes", "why_tests_cant": "Overflow needs values that no test uses, and no test tells a finite result with lost digits from a right one.", "anchors": ["bfit/model.py:198-216", "bfit/model.py:245-248", "bfit/model.py:289-298", "bfit/model.py:467-489", "bfit/fit.py:276-302", "bfit/fit.py:387-399"]}
{"id": "C119", "title": "Derivatives of Gaussian models with respect to exponents in rounded arithmetic", "statement": "The derivatives of a Gaussian model with respect to its exponents, as the program computes them for s-type and p-type functions, normalized or not, are the exact derivatives when arithmetic is exact. With rounding each differs from the exact one by at most an explicit number of roundings and the error of the library's exponential and power, relative to the sum of the sizes of its two terms, plus an explicit amount for underflow that vanishes without underflow; the derivative with respect to a coefficient is the rounded basis function. In doubles and wider binary formats with overflow a derivative that is finite is that of the rounded program, so the bound holds for it, and it is finite when distances, coefficients, normalization constants and powers of the exponents stay below an explicit limit.", "quantifier": "every rounding, distance, coefficient, exponent and format, and every library with the stated errors", "why_tests_cant": "The tests compare derivatives with finite differences at a few points to a few digits.", "anchors": ["bfit/model.py:250-262", "bfit/model.py:300-312"]}
{"id": "C120", "title": "Slater densities in floating-point formats with overflow", "statement": "Computed in doubles or a wider binary format, with infinities and NaN, the total, valence and core density of an atom, the derivative of its density and its kinetic energy density are, where they are finite, those of the rounded program, also where an exponent, a difference of energies or its square overflows; so the error bounds of rounded arithmetic hold for them, and no finite density or kinetic energy density is negative. The weights of the orbitals are finite for all finite energies. They are finite when normalization constants, powers of the distance, coefficients, occupations and the factors of derivatives stay below an explicit limit, and a density only where the first four are finite: at distances whose power overflows it is infinite or NaN, although the exact density is practically zero there. Below the threshold 1e-10 derivatives of finite Slater functions are zero.", "quantifier": "every format at least as wide as doubles, every atom, distance, order of the sums and choice of fused products, and every library with the stated properties", "why_tests_cant": "The tests evaluate a few atoms at moderate distances and never reach overflow.", "anchors": ["bfit/density.py:244-250", "bfit/density.py:291-299", "bfit/density.py:346-359", "bfit/density.py:400-408", "bfit/density.py:426-449", "bfit/density.py:466-469"]}
{"id": "C121", "title": "Objective and gradient of a SciPy fit, end to end in rounded arithmetic", "statement": "The objective that ScipyFit computes for a Gaussian model, and every entry of the gradient it hands to the optimizer, are those of the exact objective up to an explicit bound that collects the roundings of the model, of its derivatives with respect to coefficients and exponents, of the measure, of the weights and of the integration rule. The exact gradient is the derivative of the exact objective with respect to each coefficient and exponent, and with exact arithmetic the program computes both without error. Shown for least squares, for the Kullback-Leibler divergence where the model is larger than its error and the mask, and for any measure with known errors. In the same way the normalization constraint and the five numbers of goodness_of_fit are those of the exact model up to explicit bounds.", "quantifier": "every rounding, order of the sums, choice of fused products and integration rule with the stated properties, every number of basis functions, s- and p-type, normalized or not, every grid, weights, density, coefficients, non-negative exponents and parameter index", "why_tests_cant": "The tests compare gradients with finite differences at a few parameters and a loose tolerance.", "anchors": ["bfit/fit.py:88-91", "bfit/fit.py:183-192", "bfit/fit.py:700-748", "bfit/model.py:244-260", "bfit/model.py:288-308", "bfit/measure.py:105-117", "bfit/measure.py:205-229"]}
{"id": "C122", "title": "Objective, gradient and constraint of a SciPy fit in floating-point formats with overflow", "statement": "In every IEEE 754 format, with overflow, infinities and NaN, a finite objective of ScipyFit for a Gaussian model, a finite entry of its gradient, a finite normalization constraint and the finite numbers of goodness_of_fit are exactly those of the rounded program without overflow, for any measure whose finite values are; so for least squares, and for the Kullback-Leibler divergence where the ratio of density and model does not overflow. Hence a finite objective, gradient and constraint and the finite numbers of goodness_of_fit are within explicit bounds of the exact ones. Objective and gradient are finite when distances, coefficients, normalization constants and powers of the exponents are below explicit powers of two, the measure is finite at the points and the products with weights and derivatives do not overflow.", "quantifier": "every format, all library functions with the stated properties, every order of the sums and choice of fused products, every integration rule with the stated properties, every grid whose squared distances do not overflow, all coefficients, all finite exponents and every parameter index", "why_tests_cant": "The tests only run double precision at moderate parameters and do not reach overflow.", "anchors": ["bfit/fit.py:183-192", "bfit/fit.py:700-748", "bfit/model.py:244-260", "bfit/model.py:288-308", "bfit/measure.py:105-117", "bfit/measure.py:205-229"]}
