{
 "claims": [
  {
   "property": "C01",
   "status": "proved",
   "theorems": [
    "C01_atomic_value"
   ],
   "note": "Full statement over finite real inputs (exact arithmetic)."
  },
  {
   "property": "C02",
   "status": "proved",
   "theorems": [
    "C02_atomic_gradient"
   ],
   "note": "Every derivative column, s, p and mixed, normalized or not."
  },
  {
   "property": "C03",
   "status": "proved",
   "theorems": [
    "C03_atomic_flag",
    "C03_molecular_flag"
   ],
   "note": "All inputs including infinities and NaN, atomic and molecular."
  },
  {
   "property": "C04",
   "status": "proved",
   "theorems": [
    "C04_molecular_value"
   ],
   "note": "Any number of centers."
  },
  {
   "property": "C05",
   "status": "proved",
   "theorems": [
    "C05_molecular_gradient"
   ],
   "note": "All columns, documented layout."
  },
  {
   "property": "C06",
   "status": "partial",
   "theorems": [
    "C06_owner_partial",
    "C06_negative_index_refuted",
    "C06_no_centers"
   ],
   "note": "Owner found for 0 <= index < nbasis and ValueError from nbasis on; the claim is false for negative indices, which are attributed to center 0 (refuted theorem)."
  },
  {
   "property": "C07",
   "status": "proved",
   "theorems": [
    "C07_basis_function_integral",
    "C07_model_integral"
   ],
   "note": "Improper integrals with the Gaussian integral proved from scratch."
  },
  {
   "property": "C08",
   "status": "partial",
   "theorems": [
    "C08_atomic_accepts_partial",
    "C08_atomic_exceptions",
    "C08_evaluate_accepts",
    "C08_evaluate_rejects",
    "C08_one_value_per_point_partial",
    "C08_molecular_accepts_partial",
    "C08_molecular_rejects",
    "C08_molecular_mismatch",
    "C08_center_1d_refuted",
    "C08_one_value_per_point_refuted"
   ],
   "note": "Exact acceptance on N x D points, exception classes and shapes; false for 1-D points: the center size is not checked (refuted theorems)."
  },
  {
   "property": "C09",
   "status": "partial",
   "theorems": [
    "C09_change_refuted",
    "C09_numpy_refuted",
    "C09_change_history_partial",
    "C09_change_iff",
    "C09_change_raises"
   ],
   "note": "False as stated: change_numb_s_and_numb_p accepts negative and zero counts (refuted theorem). It also refuses NumPy integers, which the constructor takes. With admissible Python integers every history equals a fresh construction; counts that are not Python integers raise TypeError and nothing else does."
  },
  {
   "property": "C10",
   "status": "proved",
   "theorems": [
    "C10_atomic_linear",
    "C10_atomic_nonneg",
    "C10_molecular_linear_nonneg"
   ],
   "note": "Linearity and sign of the values returned by evaluate."
  },
  {
   "property": "C11",
   "status": "proved",
   "theorems": [
    "C11_translation",
    "C11_single_center",
    "C11_permutation"
   ],
   "note": "Translation (all inputs), one-center molecules, permutation of centers with their blocks."
  },
  {
   "property": "C12",
   "status": "proved",
   "theorems": [
    "C12_squared_value_and_derivative",
    "C12_squared_nonneg",
    "C12_squared_zero_iff",
    "C12_accepts",
    "C12_raises"
   ],
   "note": "Value, derivative, zero set and argument validation (shared by the three classes)."
  },
  {
   "property": "C13",
   "status": "proved",
   "theorems": [
    "C13_kl_value",
    "C13_kl_negative_model",
    "C13_special_values"
   ],
   "note": "Kept / masked / negative-model cases; masking includes numpy.ma safe-division rule."
  },
  {
   "property": "C14",
   "status": "partial",
   "theorems": [
    "C14_kl_derivative_partial",
    "C14_masked_refuted"
   ],
   "note": "Holds at kept points; false at masked points, where -1 is returned although the integrand is locally constant (refuted theorem)."
  },
  {
   "property": "C15",
   "status": "partial",
   "theorems": [
    "C15_zero_density_refuted",
    "C15_nan_model_refuted",
    "C15_finite_iff_partial"
   ],
   "note": "False: zero density above the mask gives NaN, and a NaN model scores 0 (refuted theorems). The exact set of finite points is characterised."
  },
  {
   "property": "C16",
   "status": "proved",
   "theorems": [
    "C16_gibbs"
   ],
   "note": "With the equality case."
  },
  {
   "property": "C17",
   "status": "proved",
   "theorems": [
    "C17_tsallis_accepts",
    "C17_tsallis_rejects",
    "C17_tsallis_value_and_derivative",
    "C17_special_values"
   ],
   "note": "Acceptance of alpha, the error otherwise, value and derivative at kept points."
  },
  {
   "property": "C18",
   "status": "partial",
   "theorems": [
    "C18_tsallis_bounds_kl_partial",
    "C18_masked_refuted"
   ],
   "note": "Holds at kept points; reversed at every masked point (refuted theorem)."
  },
  {
   "property": "C19",
   "status": "proved",
   "theorems": [
    "C19_tsallis_near_kl",
    "C19_tsallis_limit"
   ],
   "note": "Quantitative bound at the API for every accepted alpha, plus the limit."
  },
  {
   "property": "C20",
   "status": "proved",
   "theorems": [
    "C20_trapezoid",
    "C20_linear",
    "C20_monotone",
    "C20_nonneg",
    "C20_affine_exact",
    "C20_additive",
    "C20_quadrature",
    "C20_accepts",
    "C20_raises"
   ],
   "note": "Trapezoid rule, linearity, positivity, monotonicity, exactness on affine functions, additivity, quadrature form, exact acceptance test."
  },
  {
   "property": "C21",
   "status": "proved",
   "theorems": [
    "C21_uniform_points",
    "C21_equispaced",
    "C21_accepts",
    "C21_rejects",
    "C21_base"
   ],
   "note": "All arguments (integers, truth values and floats as numbers, stated in SpecInertia.number_arg); NaN ends are accepted by the code and stated so in C21_accepts."
  },
  {
   "property": "C22",
   "status": "partial",
   "theorems": [
    "C22_points",
    "C22_no_extra",
    "C22_origin",
    "C22_accepts",
    "C22_rejects",
    "C22_extra_array_refuted",
    "C22_nonneg",
    "C22_nonneg_refuted"
   ],
   "note": "All parts proved except non-negativity, which is false when an extra point is negative (refuted theorem), proved for non-negative extra points; and except that an array of two or more extra points raises ValueError (refuted theorem)."
  },
  {
   "property": "C23",
   "status": "proved",
   "theorems": [
    "C23_lattice"
   ],
   "note": "All shapes."
  },
  {
   "property": "C24",
   "status": "proved",
   "theorems": [
    "C24_weights_and_integral",
    "C24_functional",
    "C24_accepts",
    "C24_raises"
   ],
   "note": "All grids and integrands."
  },
  {
   "property": "C25",
   "status": "partial",
   "theorems": [
    "C25_cover_partial",
    "C25_cover_refuted",
    "C25_upper_end_refuted",
    "C25_no_atoms"
   ],
   "note": "False as stated: refuted by an off-center molecule and at the upper end. Proved: coverage by the cells with margin extension - |center of charge - middle|; no atoms raise ValueError."
  },
  {
   "property": "C26",
   "status": "partial",
   "theorems": [
    "C26_volume_element",
    "C26_cover_refuted",
    "C26_inertia",
    "C26_cover_partial"
   ],
   "note": "Weights spacing^3 proved for every orthogonal eigenvector output. The matrix is the moment of inertia about the center of charge. Coverage is false (rows used instead of columns), refuted with a molecule and its eigenvectors. Proved in its place: what the box is for every orthogonal output, that it contains the ball of radius extension around the center of charge, and that it covers the atoms when rows and columns agree."
  },
  {
   "property": "C27",
   "status": "proved",
   "theorems": [
    "C27_error",
    "C27_error_any_grid",
    "C27_converges"
   ],
   "note": "Explicit bound L(b-a)^2/(2(n-1)) and convergence at the API; bound also for any ascending grid."
  },
  {
   "property": "C28",
   "status": "proved",
   "theorems": [
    "C28_normalized",
    "C28_values",
    "C28_errors"
   ],
   "note": "Improper integral of the returned function; values and errors for arrays of exponents."
  },
  {
   "property": "C29",
   "status": "proved",
   "theorems": [
    "C29_derivative"
   ],
   "note": "All exponents, n >= 1 and points; 0 below 1e-10."
  },
  {
   "property": "C30",
   "status": "proved",
   "theorems": [
    "C30_core_valence",
    "C30_total",
    "C30_unknown_mode",
    "C30_shape"
   ],
   "note": "All parsed data with non-negative occupations; unknown mode and 2-d points raise ValueError."
  },
  {
   "property": "C31",
   "status": "partial",
   "theorems": [
    "C31_reference_partial",
    "C31_reference_refuted"
   ],
   "note": "False: the reference is the last listed subshell (refuted with the order of ag.slater). Proved when the last listed subshell has the highest energy."
  },
  {
   "property": "C32",
   "status": "proved",
   "theorems": [
    "C32_derivative"
   ],
   "note": "All points with |r| >= 1e-10; returned value is 0 below."
  },
  {
   "property": "C33",
   "status": "proved",
   "theorems": [
    "C33_kinetic"
   ],
   "note": "Documented form with the true orbital derivative away from the origin, non-negative everywhere."
  },
  {
   "property": "C34",
   "status": "proved",
   "theorems": [
    "C34_integral",
    "C34_orbital_norm"
   ],
   "note": "Closed form of the orbital norms proved as an improper integral."
  },
  {
   "property": "C35",
   "status": "proved",
   "theorems": [
    "C35_occupations",
    "C35_electron_count",
    "C35_whole_numbers"
   ],
   "note": "All configurations of distinct pieces; counts of S and P subshells have one digit, as every physical count does."
  },
  {
   "property": "C36",
   "status": "proved",
   "theorems": [
    "C36_core",
    "C36_expansion",
    "C36_otherwise_ValueError"
   ],
   "note": "Both cores, any further subshells; ValueError exactly when neither core is named."
  },
  {
   "property": "C37",
   "status": "partial",
   "theorems": [
    "C37_column_partial",
    "C37_column_shifted",
    "C37_column_refuted",
    "C37_any_column"
   ],
   "note": "Proved for blocks that start at the lowest orbital (l+1)L, as all shipped files do. False for other blocks (refuted theorem)."
  },
  {
   "property": "C38",
   "status": "proved",
   "theorems": [
    "C38_well_formed_file",
    "C38_unoccupied",
    "C38_lengths",
    "C38_no_energy",
    "C38_no_value",
    "C38_bad_value",
    "C38_bad_ratio",
    "C38_no_ratio"
   ],
   "note": "Light and heavy layouts, any number of rows, up to 7 shells, blank lines and titles where the files have them."
  },
  {
   "property": "C39",
   "status": "partial",
   "theorems": [
    "C39_blank_rest_refuted",
    "C39_truncated_refuted",
    "C39_stops_partial",
    "C39_steps"
   ],
   "note": "False: truncated files loop forever (refuted theorems). Proved for all other files, with a bound on the steps."
  },
  {
   "property": "C40",
   "status": "partial",
   "theorems": [
    "C40_case_insensitive",
    "C40_rejections",
    "C40_missing_file",
    "C40_loads_partial",
    "C40_cesium_cation_refuted",
    "C40_only_cesium"
   ],
   "note": "Case, rejections, loading proved. False for the cesium cation: listed, but its file raises ValueError (refuted theorem)."
  },
  {
   "property": "C41",
   "status": "proved",
   "theorems": [
    "C41_exponents",
    "C41_not_text"
   ],
   "note": "Files of entries of two lines among other lines."
  },
  {
   "property": "C42",
   "status": "proved",
   "theorems": [
    "C42_integrate",
    "C42_radial_grids",
    "C42_cubic_grids",
    "C42_goodness",
    "C42_signs",
    "C42_negative_model",
    "C42_mismatch"
   ],
   "note": "All grids acting as a quadrature (radial and cubic grids proved to be such), all models."
  },
  {
   "property": "C43",
   "status": "proved",
   "theorems": [
    "C43_sum"
   ],
   "note": "All inputs with unmasked points."
  },
  {
   "property": "C44",
   "status": "proved",
   "theorems": [
    "C44_iterates",
    "C44_run"
   ],
   "note": "All iterates and the returned result; needs a weighted point off each center."
  },
  {
   "property": "C45",
   "status": "proved",
   "theorems": [
    "C45_step",
    "C45_iterates",
    "C45_run"
   ],
   "note": "Step, iterates and reported values, with strict decrease away from fixed points. Assumes positive density and no masked point."
  },
  {
   "property": "C46",
   "status": "partial",
   "theorems": [
    "C46_coefficients",
    "C46_exponents",
    "C46_unnormalised_refuted",
    "C46_unnormalised_slope"
   ],
   "note": "Proved for coefficients (any model) and for exponents of normalized functions. False for exponents of unnormalized functions (refuted theorem)."
  },
  {
   "property": "C47",
   "status": "partial",
   "theorems": [
    "C47_result",
    "C47_fixed",
    "C47_stop",
    "C47_rejects",
    "C47_nothing",
    "C47_nothing_refuted"
   ],
   "note": "All parts proved, except that with a negative maxiter both flags False do not raise (refuted theorem)."
  },
  {
   "property": "C48",
   "status": "partial",
   "theorems": [
    "C48_success_partial",
    "C48_flag",
    "C48_nan_refuted",
    "C48_negative_limit_refuted",
    "C48_one_iteration"
   ],
   "note": "False: success is reported with NaN parameters and for a negative maxiter (refuted theorems). What success does imply is C48_success_partial."
  },
  {
   "property": "C49",
   "status": "proved",
   "theorems": [
    "C49_gradient",
    "C49_one_weight",
    "C49_other_weights"
   ],
   "note": "All modes, measures, weights, models at unmasked points; weights of other sizes too."
  },
  {
   "property": "C50",
   "status": "partial",
   "theorems": [
    "C50_value",
    "C50_used",
    "C50_trust_constr_refuted",
    "C50_trust_constr_run_refuted"
   ],
   "note": "Value proved in every mode. False for trust-constr with one kind of parameters fixed: the constraint raises ValueError (refuted theorems)."
  },
  {
   "property": "C51",
   "status": "partial",
   "theorems": [
    "C51_problem",
    "C51_nothing",
    "C51_unknown_args",
    "C51_result",
    "C51_bounds",
    "C51_default_measure_refuted"
   ],
   "note": "Proved for every optimizer; the documented default measure is always rejected (refuted theorem)."
  },
  {
   "property": "C52",
   "status": "partial",
   "theorems": [
    "C52_base_accepts",
    "C52_base_raises",
    "C52_fpi_accepts",
    "C52_fpi_base",
    "C52_scipy_accepts",
    "C52_scipy_raises",
    "C52_points",
    "C52_points_shapes",
    "C52_points_raise",
    "C52_single_point_refuted"
   ],
   "note": "Acceptance characterised for the three constructors, with the error of the first failed check, for points of all shapes. False as stated for mismatched points: a single point is compared with every point of the other array, so the numbers of points may differ (refuted theorem)."
  },
  {
   "property": "C53",
   "status": "partial",
   "theorems": [
    "C53_next_choices",
    "C53_floats",
    "C53_types",
    "C53_integers_refuted"
   ],
   "note": "Proved for arrays of floats (all sizes, all values including non-finite ones), which is what the greedy algorithms pass. False for arrays of integers: np.insert truncates (C53_integers_refuted); C53_types gives the choices for every dtype."
  },
  {
   "property": "C54",
   "status": "proved",
   "theorems": [
    "C54_two_choices",
    "C54_types"
   ],
   "note": "All sizes; exact count and exactly the two-step extensions. C54_types: integer arrays."
  },
  {
   "property": "C55",
   "status": "proved",
   "theorems": [
    "C55_lose_one",
    "C55_types"
   ],
   "note": "All sizes; exact count and exactly the two-step extensions with one function removed. C55_types: integer arrays."
  },
  {
   "property": "C56",
   "status": "partial",
   "theorems": [
    "C56_positive",
    "C56_integers_refuted",
    "C56_integers_partial"
   ],
   "note": "Proved for arrays of floats and all three ways to choose. False for integers: the exponent can become 0 (C56_integers_refuted); C56_integers_partial gives what remains."
  },
  {
   "property": "C57",
   "status": "partial",
   "theorems": [
    "C57_meaning",
    "C57_separated",
    "C57_unchanged",
    "C57_weight_partial",
    "C57_weight_lost_refuted",
    "C57_weight_doubled_refuted"
   ],
   "note": "Meaning, separation and the unchanged case proved for all inputs. The total weight is kept if closeness is transitive on the exponents; it is false otherwise (two refuted theorems: lost and doubled)."
  },
  {
   "property": "C58",
   "status": "partial",
   "theorems": [
    "C58_best",
    "C58_total",
    "C58_huge_refuted"
   ],
   "note": "Proved for all lists and values below 10^10. False when every candidate costs at least 10^10: nothing is returned and the run raises TypeError (refuted theorem)."
  },
  {
   "property": "C59",
   "status": "partial",
   "theorems": [
    "C59_extra_refuted"
   ],
   "note": "False: the extra choices have no effect on any run (refuted theorem, for every callable that returns)."
  },
  {
   "property": "C60",
   "status": "proved",
   "theorems": [
    "C60_history"
   ],
   "note": "All optimizers, objectives without NaN, fresh or used objects."
  },
  {
   "property": "C61",
   "status": "partial",
   "theorems": [
    "C61_size_partial",
    "C61_pick_two_refuted",
    "C61_coefficients",
    "C61_fresh"
   ],
   "note": "Proved with the bound max(1, limit - 1 + added functions). False for pick-two, which may return limit + 1 functions (refuted theorem)."
  },
  {
   "property": "C62",
   "status": "proved",
   "theorems": [
    "C62_terminates",
    "C62_factor"
   ],
   "note": "At most 5 (limit - 1) rounds for every optimizer, including NaN objectives."
  },
  {
   "property": "C63",
   "status": "partial",
   "theorems": [
    "C63_flags_partial",
    "C63_limit_refuted",
    "C63_converged_refuted"
   ],
   "note": "False: a converged run is reported as failed and a run stopped by its limit as successful (refuted theorems). What the flag does say is C63_flags_partial."
  },
  {
   "property": "C64",
   "status": "partial",
   "theorems": [
    "C64_kl_refuted",
    "C64_ls_refuted",
    "C64_errors_refuted"
   ],
   "note": "False: after a run that added a function a second run raises ValueError, and otherwise the error lists of both runs are joined (refuted theorems, all runs)."
  },
  {
   "property": "C65",
   "status": "partial",
   "theorems": [
    "C65_consistent_partial",
    "C65_nan_refuted"
   ],
   "note": "Proved if no objective is NaN; false with NaN (refuted theorem)."
  },
  {
   "property": "C66",
   "status": "proved",
   "theorems": [
    "C66_optimal",
    "C66_best_of_three"
   ],
   "note": "Unique global optimality of the weighted log fit; best of the three weightings."
  },
  {
   "property": "C67",
   "status": "partial",
   "theorems": [
    "C67_value_partial",
    "C67_best_partial",
    "C67_other_integral_refuted",
    "C67_plain_refuted"
   ],
   "note": "Proved for spherical grids with integral_dens equal to the integral of the density. False with another integral_dens, and without spherical but for a coincidence (refuted theorems)."
  },
  {
   "property": "C68",
   "status": "partial",
   "theorems": [
    "C68_matrix_partial",
    "C68_normalized_refuted"
   ],
   "note": "Proved without normalization; false with it (refuted theorem)."
  },
  {
   "property": "C69",
   "status": "partial",
   "theorems": [
    "C69_finite_partial",
    "C69_nan_refuted"
   ],
   "note": "Proved for finite objectives; false if the objective of the start is NaN or infinite (refuted theorem)."
  },
  {
   "property": "C70",
   "status": "partial",
   "theorems": [
    "C70_masked_finite_refuted"
   ],
   "note": "False: for alpha < 1 every masked point with positive density gives -infinity (refuted theorem). For alpha > 1 the masked value is -f/(alpha-1) (C18_masked_refuted)."
  },
  {
   "property": "C71",
   "status": "proved",
   "theorems": [
    "C71_tsallis_gibbs"
   ],
   "note": "All accepted alpha."
  },
  {
   "property": "C72",
   "status": "proved",
   "theorems": [
    "C72_measure_flag"
   ],
   "note": "All inputs."
  },
  {
   "property": "C73",
   "status": "proved",
   "theorems": [
    "C73_weizsaecker"
   ],
   "note": "All points, via a weighted Cauchy-Schwarz inequality."
  },
  {
   "property": "C74",
   "status": "proved",
   "theorems": [
    "C74_decay"
   ],
   "note": "All modes."
  },
  {
   "property": "C75",
   "status": "partial",
   "theorems": [
    "C75_origin_refuted"
   ],
   "note": "False: the code returns 0 at the origin (documented there as a convention) while a 1s density has slope -2 z rho(0) (refuted theorem)."
  },
  {
   "property": "C76",
   "status": "proved",
   "theorems": [
    "C76_update"
   ],
   "note": "All models and flags."
  },
  {
   "property": "C77",
   "status": "proved",
   "theorems": [
    "C77_kl_run",
    "C77_kl_returns"
   ],
   "note": "All settings with non-negative weights, a positive density and a weighted point off the origin."
  },
  {
   "property": "C78",
   "status": "partial",
   "theorems": [
    "C78_ls_run_partial",
    "C78_rising_refuted"
   ],
   "note": "Proved for densities that fall outwards. False for a rising density with normalized functions: RuntimeError (refuted theorem)."
  },
  {
   "property": "C79",
   "status": "proved",
   "theorems": [
    "C79_accepts",
    "C79_accepts_mode",
    "C79_errors"
   ],
   "note": "All data and points; NumPy broadcasting of length-one columns included."
  },
  {
   "property": "C80",
   "status": "partial",
   "theorems": [
    "C80_shipped_files_partial",
    "C80_cesium_cation_refuted"
   ],
   "note": "Proved for 23 of the 24 files; the cesium cation raises ValueError (refuted theorem)."
  },
  {
   "property": "C81",
   "status": "proved",
   "theorems": [
    "C81_file_to_functions"
   ],
   "note": "All files in the layout of the library with finite numbers and positive exponents."
  },
  {
   "property": "C82",
   "status": "proved",
   "theorems": [
    "C82_electrons",
    "C82_every_file"
   ],
   "note": "Every file that loads (all but the cesium cation); decimal numbers are read exactly."
  },
  {
   "property": "C83",
   "status": "proved",
   "theorems": [
    "C83_kinetic_integral",
    "C83_element"
   ],
   "note": "All atoms with positive exponents; points at least 1e-10 from the origin."
  },
  {
   "property": "C84",
   "status": "proved",
   "theorems": [
    "C84_kinetic_energy"
   ],
   "note": "Every file that loads (all but the cesium cation); decimal numbers are read exactly."
  },
  {
   "property": "C85",
   "status": "partial",
   "theorems": [
    "C85_shipped_exponents",
    "C85_other_names",
    "C85_header_refuted",
    "C85_any_file",
    "C85_not_text"
   ],
   "note": "Proved for the 72 elements with entries. False for 28 elements that the header names, such as cerium: empty lists and no error (refuted theorem). C85_any_file says what is returned or raised for every file."
  },
  {
   "property": "C86",
   "status": "proved",
   "theorems": [
    "C86_built",
    "C86_rejects",
    "C86_routine",
    "C86_origin",
    "C86_result"
   ],
   "note": "The integral over space is the requested number of electrons only if the parameters of the last update masked no point; this condition is part of the theorem."
  },
  {
   "property": "C87",
   "status": "proved",
   "theorems": [
    "C87_built",
    "C87_rejects",
    "C87_routine"
   ],
   "note": "For arbitrary solvers."
  },
  {
   "property": "C88",
   "status": "proved",
   "theorems": [
    "C88_rate",
    "C88_limit",
    "C88_stops"
   ],
   "note": "All settings whose iterates mask no point; the rate is explicit."
  },
  {
   "property": "C89",
   "status": "partial",
   "theorems": [
    "C89_stops_partial",
    "C89_on_center_refuted"
   ],
   "note": "Proved if coefficients only are optimized or no weighted point lies on the center of an s function. False with a point on the nucleus: the exponent grows without bound (refuted theorem)."
  },
  {
   "property": "C90",
   "status": "proved",
   "theorems": [
    "C90_formats",
    "C90_radial",
    "C90_radial_double",
    "C90_cubic",
    "C90_spherical",
    "C90_order",
    "C90_exact"
   ],
   "note": "Rounding is any function with the listed properties; every binary format has them (C90_formats). The spherical bound is for non-negative values without underflow. No overflow."
  },
  {
   "property": "C91",
   "status": "proved",
   "theorems": [
    "C91_value",
    "C91_sign"
   ],
   "note": "s-type functions that are not normalized; the exponential is any function with the given error. No overflow."
  },
  {
   "property": "C92",
   "status": "proved",
   "theorems": [
    "C92_sign",
    "C92_sum",
    "C92_exact",
    "C92_exact_masked"
   ],
   "note": "Signs with underflow, sums without. The matrix of basis values is an input of the updates. No overflow. Masked points in the exact formula only."
  },
  {
   "property": "C93",
   "status": "partial",
   "theorems": [
    "C93_kl_radial_partial",
    "C93_ls_radial_partial",
    "C93_kl_cubic_refuted",
    "C93_ls_cubic_refuted",
    "C93_ls_extend_refuted",
    "C93_ls_shapes",
    "C93_ls_solution",
    "C93_ls_exact_refuted",
    "C93_ls_best"
   ],
   "note": "False for cubic grids: every run raises ValueError because the points are used as distances (refuted theorems; least squares with one or three points excepted, where no second function is found). Proved for radial grids, for least squares with a falling density. C93_ls_solution gives what least squares computes from points in space, which is not the fit (C93_ls_exact_refuted)."
  },
  {
   "property": "C94",
   "status": "proved",
   "theorems": [
    "C94_converges",
    "C94_one_density"
   ],
   "note": "All settings whose iterates mask no point. The limit of the coefficients may depend on the start, the density does not."
  },
  {
   "property": "C95",
   "status": "proved",
   "theorems": [
    "C95_reader",
    "C95_fpi",
    "C95_slsqp",
    "C95_other_names",
    "C95_truncated",
    "C95_invalid",
    "C95_density"
   ],
   "note": "The reader of JSON is proved to accept exactly the format of the files (no escapes, true, false, null). The .npz copies of the files are not modelled."
  },
  {
   "property": "C96",
   "status": "proved",
   "theorems": [
    "C96_grids",
    "C96_run",
    "C96_nan_stops",
    "C96_default"
   ],
   "note": "Exact arithmetic: in floating point the model may underflow to 0 at the zero of the density and is then masked. A run that stops after one update can report success with NaN in fun."
  },
  {
   "property": "C97",
   "status": "partial",
   "theorems": [
    "C97_steps",
    "C97_readme_refuted"
   ],
   "note": "False as printed: four coefficients for five functions raise ValueError for every density (refuted theorem). Proved with guesses of the right length, for all radial grids."
  },
  {
   "property": "C98",
   "status": "partial",
   "theorems": [
    "C98_loads_partial",
    "C98_functions_partial",
    "C98_silver_anion_refuted",
    "C98_cesium_cation_refuted"
   ],
   "note": "False for the silver anion, whose archived file is not a data file, and for the cesium cation (refuted theorems). Proved for all other atoms and ions. Norms of the orbitals are computed only for the 24 files in the folders (C82, C84). The lines of anion/ag.an after line 80 are arbitrary in the model."
  },
  {
   "property": "C99",
   "status": "proved",
   "theorems": [
    "C99_zeros",
    "C99_kinetic_zeros",
    "C99_fit",
    "C99_setup",
    "C99_table_1",
    "C99_table_5",
    "C99_tables",
    "C99_scripts"
   ],
   "note": "The loop bodies of table_1_and_2.py and table_5.py up to the call of run. Printing, the relative errors computed afterwards and the saving of the results are not modelled. The lines of anion/ag.an after line 80 are arbitrary."
  },
  {
   "property": "C100",
   "status": "proved",
   "theorems": [
    "C100_formats",
    "C100_value",
    "C100_sign",
    "C100_exact"
   ],
   "note": "The exponential and the power are any functions with the given errors. The distances are inputs. The bound needs prefactors above the least normal number; the sign does not. No overflow."
  },
  {
   "property": "C101",
   "status": "proved",
   "theorems": [
    "C101_grids",
    "C101_sign",
    "C101_sum",
    "C101_bounds",
    "C101_formula",
    "C101_runs",
    "C101_always"
   ],
   "note": "Signs with underflow, the rest without. The stopping test only ends the passes early and is left out. A division by zero is no result. Positive model values: the branch for negative ones is left out. No overflow."
  },
  {
   "property": "C102",
   "status": "proved",
   "theorems": [
    "C102_gradient",
    "C102_coefficients"
   ],
   "note": "Model values equal to the mask value or to the lower bound of the ratio are left out; the density is positive."
  },
  {
   "property": "C103",
   "status": "proved",
   "theorems": [
    "C103_setup",
    "C103_run",
    "C103_tables",
    "C103_scripts",
    "C103_names",
    "C103_least_squares"
   ],
   "note": "The optimizer is any function that returns a vector within the bounds. Numbers are read exactly as in C85. The gradient of the objective of table 3 is that of C102, for positive densities. Printing is left out."
  },
  {
   "property": "C104",
   "status": "proved",
   "theorems": [
    "C104_sum",
    "C104_excess",
    "C104_step",
    "C104_fixed",
    "C104_reported",
    "C104_run",
    "C104_misses"
   ],
   "note": "Exact arithmetic. The bound along a run assumes that the same points stay masked; C104_step holds without it."
  },
  {
   "property": "C105",
   "status": "proved",
   "theorems": [
    "C105_atomdb",
    "C105_atoms",
    "C105_errors",
    "C105_notebook"
   ],
   "note": "Exact arithmetic. The density of AtomDB is any function with finite values. Printing, plots and the written file are left out."
  },
  {
   "property": "C106",
   "status": "proved",
   "theorems": [
    "C106_numbers",
    "C106_numbers_only",
    "C106_header",
    "C106_row",
    "C106_count",
    "C106_strip",
    "C106_words",
    "C106_split",
    "C106_heavy",
    "C106_column",
    "C106_index"
   ],
   "note": "ASCII text. Lines are without their line break, which no pattern can use."
  },
  {
   "property": "C107",
   "status": "partial",
   "theorems": [
    "C107_points",
    "C107_documented_partial",
    "C107_documented_refuted",
    "C107_last"
   ],
   "note": "False as documented unless there are 200 core points (C107_documented_refuted), and the point at 25 is not documented. Proved for 200 and 300 points up to that one; C107_points gives the points for all numbers."
  },
  {
   "property": "C108",
   "status": "proved",
   "theorems": [
    "C108_guesses"
   ],
   "note": "Random numbers are any list of the requested length."
  },
  {
   "property": "C109",
   "status": "proved",
   "theorems": [
    "C109_density",
    "C109_radial",
    "C109_notebook"
   ],
   "note": "Exact arithmetic. Random numbers are any positive lists of the requested length. Plots and printed text are left out."
  },
  {
   "property": "C110",
   "status": "proved",
   "theorems": [
    "C110_twins",
    "C110_merge",
    "C110_notebook"
   ],
   "note": "Exact arithmetic. Points, weights and density values of the notebook come from other packages and are arguments. Printing and plots are left out."
  },
  {
   "property": "C111",
   "status": "proved",
   "theorems": [
    "C111_grid",
    "C111_fit"
   ],
   "note": "Exact arithmetic. The size of the grid is shown to exist for each eps, not computed."
  },
  {
   "property": "C112",
   "status": "proved",
   "theorems": [
    "C112_accepts",
    "C112_finite",
    "C112_infinite",
    "C112_nan"
   ],
   "note": "Exact arithmetic. The order is a number."
  },
  {
   "property": "C113",
   "status": "proved",
   "theorems": [
    "C113_round_trip",
    "C113_doubles",
    "C113_damaged",
    "C113_written",
    "C113_fpi",
    "C113_slsqp",
    "C113_other_names",
    "C113_archives"
   ],
   "note": "NumPy and zipfile are libraries: their format is given for uncompressed archives without Zip64 records and .npy version 1.0. Extra fields are skipped; zipfile also checks their lengths. The bytes of the files are copied into DataNpz.v."
  },
  {
   "property": "C114",
   "status": "proved",
   "theorems": [
    "C114_density",
    "C114_derivative",
    "C114_kinetic",
    "C114_slopes",
    "C114_sign",
    "C114_homo",
    "C114_exact"
   ],
   "note": "No overflow. The library functions (exponential, power, factorial) are any functions with the stated errors; square roots are correctly rounded. The bounds hold where no prefactor underflows and, for derivatives, from 1e-10 on."
  },
  {
   "property": "C115",
   "status": "proved",
   "theorems": [
    "C115_squared",
    "C115_kl",
    "C115_kl_sign",
    "C115_tsallis",
    "C115_rules",
    "C115_objective",
    "C115_gradient",
    "C115_gibbs",
    "C115_zero",
    "C115_goodness",
    "C115_goodness_error",
    "C115_library",
    "C115_order",
    "C115_exact"
   ],
   "note": "No overflow. The library functions (square, logarithm, power) are any functions with the stated errors; correctly rounded ones are shown to be such functions. Kullback-Leibler and Tsallis bounds hold for positive values whose ratio does not underflow; a zero density gives NaN in the program and is treated in C15."
  },
  {
   "property": "C116",
   "status": "proved",
   "theorems": [
    "C116_operations",
    "C116_integrals",
    "C116_no_overflow",
    "C116_radial",
    "C116_overflow",
    "C116_widen",
    "C116_ratio",
    "C116_measures",
    "C116_finite_measures",
    "C116_negative",
    "C116_objective",
    "C116_finite_objective",
    "C116_squares"
   ],
   "note": "NaN has one representation and library functions (square, logarithm, power) are any functions that compute a given real function where their result is finite. Gaussian models are in C118; Slater densities are in C120. All arrays of a computation have one format; mixed formats are covered as far as the narrower data are widened first. The double-double format of some PowerPC systems is not treated."
  },
  {
   "property": "C117",
   "status": "proved",
   "theorems": [
    "C117_fpi_same",
    "C117_fpi_lines",
    "C117_fpi_raise",
    "C117_scipy_same",
    "C117_scipy_lines",
    "C117_scipy_final",
    "C117_scipy_raise",
    "C117_greedy_same",
    "C117_greedy_lines",
    "C117_strategies",
    "C117_widths"
   ],
   "note": "How numbers, arrays, the elapsed time and exit_info are written are parameters; the layout is not. The output of SciPy itself and print are libraries."
  },
  {
   "property": "C118",
   "status": "proved",
   "theorems": [
    "C118_dot",
    "C118_model",
    "C118_no_overflow",
    "C118_value",
    "C118_sign",
    "C118_far",
    "C118_library",
    "C118_step",
    "C118_runs",
    "C118_runs_sign"
   ],
   "note": "Passes are without the stopping test (that of C44) and for model values that are not negative; with a negative one the program uses the large value instead. np.power with exponent 2 is a product. Derivatives of the model are in C119."
  },
  {
   "property": "C119",
   "status": "proved",
   "theorems": [
    "C119_derivative",
    "C119_exact",
    "C119_value",
    "C119_no_underflow",
    "C119_row",
    "C119_coefficient",
    "C119_formats",
    "C119_format_value",
    "C119_no_overflow",
    "C119_library"
   ],
   "note": "np.power with exponent 2 is a product. The bound relative to the two terms holds where the normalization constant, the square of the distance and the power in the second term do not underflow; sums of derivatives over the grid (the gradient of the objective) are in C115 and C116."
  },
  {
   "property": "C120",
   "status": "proved",
   "theorems": [
    "C120_function",
    "C120_weights",
    "C120_density",
    "C120_slopes",
    "C120_no_overflow",
    "C120_no_overflow_slopes",
    "C120_value",
    "C120_slope_values",
    "C120_sign",
    "C120_far",
    "C120_origin",
    "C120_library"
   ],
   "note": "Squares are products, np.power with natural exponents and factorials are any functions with the stated properties (factorials of the principal quantum numbers must be finite), energies and exponents are finite, angular momenta are those of the table S, P, D, F. The kinetic energy density is treated where the square of the distance does not overflow."
  },
  {
   "property": "C121",
   "status": "proved",
   "theorems": [
    "C121_derivative",
    "C121_measures",
    "C121_exact",
    "C121_any",
    "C121_squares",
    "C121_kl",
    "C121_constraint",
    "C121_quality"
   ],
   "note": "Parameters, mask and model values that underflow are outside: exponents are at most M and normalization constants, powers and squares of distances do not underflow. No overflow. Library functions are any functions with the stated errors; the large value of the Kullback-Leibler divergence for negative models does not occur since the model is positive."
  },
  {
   "property": "C122",
   "status": "proved",
   "theorems": [
    "C122_any",
    "C122_squares",
    "C122_kl",
    "C122_constraint",
    "C122_quality",
    "C122_squares_value",
    "C122_kl_value",
    "C122_constraint_value",
    "C122_quality_value",
    "C122_no_overflow"
   ],
   "note": "Squares of distances do not overflow and a fused product is never alone; that measure, products and integration do not overflow is a hypothesis of the theorem on finite results. Library functions are any functions with the stated errors; the large value of the Kullback-Leibler divergence for negative models is not part of the elementwise measure."
  }
 ]
}