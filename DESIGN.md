# Formal model of BFit: design

Subject: `/repo/bfit` (theochem/BFit, Python).  Prover: Coq 8.16.1 with Coquelicot and Flocq.
All Coq sources are in `rocq/theories`; `rocq/_CoqProject` lists them.

## 1. Number model

Floating point numbers are modelled by **extended reals**

    Inductive xr := Fin (r : R) | PInf | NInf | NaN.

with the IEEE-754 rules for special values (NaN propagation, `inf - inf`, `0*inf`,
`x/0`, comparisons with NaN are false) and *exact* real arithmetic on finite values.
So the model keeps every control-flow decision that depends on NaN / infinity /
masking, but has **no rounding, no overflow, no underflow and no signed zero**
(`x/0` has the sign of `x`).  Every statement about finite values is a statement
about exact arithmetic; this is the largest gap to the running code.

C90-C92 close part of it: `ModelRnd.v` repeats the integrals of the grids, the values of s-type
models and the coefficient updates with a rounding after every operation.  A rounding is any
function that is monotone, keeps the numbers of the format and has the usual error bounds
(`SpecRnd.rounding`); `C90_formats` shows it for all binary formats of Flocq (`SpecBin.v`).  The
order of the additions is an arbitrary tree, since NumPy and BLAS choose it.  Overflow is left out.
`ModelRnd2.v` (C100, C101) adds prefactors, p-type functions and the updates of exponents;
`ModelRnd3.v` (C114) adds the Slater functions, orbitals and densities, `ModelRnd4.v` (C115) the
measures, the objective of `ScipyFit` with its gradient, and `goodness_of_fit`.  `ModelBin64.v`
(C116) computes integrals, measures, objectives and updates with Flocq's IEEE 754 doubles and wider formats, so with
overflow, infinities and NaN, and links finite results to the rounded models; `ModelBinModel.v` (C118),
`ModelSlope.v` (C119) and `ModelBinSto.v` (C120) do so for Gaussian models, their derivatives and Slater densities.
`ModelDescent.v` (C121) puts models, derivatives, measures and integration together to the rounded `ScipyFit.func`,
`const_norm` and `goodness_of_fit`; `ModelBinDescent.v` (C122) links these to formats with overflow.

The analysis (derivatives, integrals) is done on Coq's `R` with Coquelicot; bridging
lemmas show that on finite inputs the `xr` model returns `Fin` of the real formula.

Purely combinatorial code (greedy candidate generation, string and file parsing,
loops) is modelled polymorphically or on concrete data types, and is executable.

## 2. Exceptions, arrays, objects

* `res A := Ok a | Raise e` for Python exceptions, `e` an exception class.
* Python argument validation is modelled on a small type of dynamic values where the
  property concerns validation (`isinstance` tests); arrays are lists (1-D) or lists of
  rows with an explicit column count (2-D).  dtype is modelled where it decides the result
  (`ModelChoice.v`: integer or float arrays in the generation of guesses) and not otherwise;
  memory layout, views and in-place aliasing are not modelled.
* Objects become records; mutation becomes state passing.
* NumPy primitives (`exp`, `dot`, `trapz`, masked division, `power`, `sort`, slicing)
  are modelled by their documented behaviour.  Masked division `a / ma(b)` follows
  `numpy.ma`: the quotient is masked where `b` is masked, where the quotient is not
  finite, or where `|a| * tiny >= |b|` (`tiny = 2^-1022`).
* Arithmetic on arrays of different sizes raises ValueError unless NumPy broadcasts them
  (`bcast`, `points_differ`).
* SciPy (`minimize`, `nnls`), `eigh`, random numbers, the file system: uninterpreted
  parameters (theorems quantify over every behaviour).

### Parsers

* Text is a list of ASCII characters.  A file is the list of its lines without line ends (text
  mode, so CRLF counts as a line end); `readline` after the last line gives the empty text.
* `float` is a parameter `fl` applied to the stripped text; theorems hold for every `fl`.  For the
  shipped files it is assumed to succeed on decimal numbers such as `-12.5` and `.5`.
  For C82 and C84 it gives a decimal number its exact value (`reads_decimals`), so the rounding of
  the decimal numbers of a file to binary is not modelled.
* `isalpha`, `lower`, `strip`, `split` are given for ASCII only.
* The regular expressions are matched by hand-written functions for the patterns that occur.
* `while` loops take a number of steps; `None` means that the steps did not suffice.
* The file system is a function from directory and name to the lines of a file.

## 3. Trusted base

* the Coq kernel (and `coqchk`),
* standard-library axioms of the classical reals as listed by `Print Assumptions`
  (`ClassicalDedekindReals.sig_forall_dec`, `sig_not_dec`,
  `functional_extensionality_dep`, `Classical_Prop.classic` through Coquelicot);
  no other axioms,
* the hand translation Python -> Gallina (each definition cites file and lines),
* the semantics given to NumPy/Python primitives above.

## 4. Properties: how each is modelled and proved

| id | model | proof idea / expected verdict |
|----|-------|------|
| C01 | `evaluate`, `_eval_s`, `_eval_p` over xr | unfold to real sums |
| C02 | same, derivative columns | `is_derive` of the real formula per column |
| C03 | same | by computation, all inputs incl. NaN |
| C04, C05 | `MolecularGaussianDensity.evaluate` loop with slices and block writes | loop invariant over centers; reduce to C01/C02 |
| C06 | cumsum search | induction; negative index accepted -> refuted part |
| C07 | real basis functions | Gaussian integral, improper integrals by parts |
| C08, C09 | constructors on dynamic values | case analysis; counterexamples for missing checks |
| C10, C11 | real formula | algebra |
| C12-C15 | `measure.py` over xr | pointwise; witnesses at masked points / zeros / NaN |
| C16 | KL + quadrature | `ln x <= x-1` |
| C17-C19 | Tsallis | derivative of power; `exp x >= 1+x`; limit |
| C20-C22 | radial grids | list induction |
| C23, C24 | cubic grid | index arithmetic of meshgrid/reshape |
| C25, C26 | from_molecule | counterexample geometry; what the box is for every orthogonal eigenvector output, the ball it contains, when it covers the atoms; the moment of inertia |
| C27 | trapezoid error | Chasles + Lipschitz bound |
| C28-C34 | density.py | Gamma-type integrals, derivatives, sums |
| C35-C41 | parsers on strings; elements by atomic number (C40, C80) | grammar round trip, fuel-based reading, divergence as "no fuel suffices" |
| C80 | the text of the files in `bfit/data` (`DataSlater.v`) | verified layout checker run by the kernel (`vm_compute`) |
| C81 | parsers and density.py joined (`atom_of`) | contents of the file give the subshells; C28-C34 apply |
| C82, C84 | the same on the shipped files | closed forms of the integrals, integer interval arithmetic run by the kernel (`files_near`) |
| C85 | the text of `bfit/data/ygbs` (`DataUgbs.v`) | verified table checker run by the kernel |
| C95 | the texts of the fitted models (`DataFits.v`), `json.load` (`ModelJson.v`) | the reader is proved to accept exactly a grammar; each entry checked by the kernel; C07 |
| C96 | `fpi_run`, `goodness`, `kl_values`, `radial_integrate`, `cubic_integrate` | NaN entries of the integrand carried through the integral, the loop condition and the flag |
| C97 | grid, model and fit joined as in README (`fpi_steps`) | positive trapezoid integral gives a supported setting; C44, C96 |
| C98 | `slater_atoms`, `load_slater_wfn`, `parse_slater` on the texts of `data.tar` | the decision procedure of C80 run on 198 files; an empty configuration leaves no occupation for the first orbital |
| C99 | `table_fit`: the loop bodies of `examples/table/table_1_and_2.py` and `table_5.py`, from `clenshaw_init`, `get_ugbs_exponents`, `slater_atoms`, `atomic_density`, `kinetic_energy`, `atomic_init`, `fpi_init`, `fpi_run` | sums of polynomials times exponentials with as many zeros as coefficients vanish (Rolle, by induction); a first-row check on the 198 archived files gives a subshell with an exponent of its own |
| C83 | density.py kinetic energy | Gamma-type integrals |
| C42 | fit.py `_BaseFit` | algebra, positivity |
| C43-C46 | `_update_params` | identities, EM/MM argument with concavity of ln |
| C47, C48 | `run` loop | loop invariants; witnesses |
| C49-C52 | ScipyFit with oracle optimizer | differentiation under finite sum; case analysis |
| C53-C57 | greedy.py generators | list induction |
| C58-C65, C69 | greedy run with oracles | loop invariants; witnesses |
| C70-C72 | measures at zeros, masked points | algebra, witnesses |
| C73-C75 | density.py inequalities, limits | Cauchy-Schwarz; witness at the nucleus |
| C76 | `_update_params` | unfolding to sums |
| C79 | density.py on arbitrary data | case analysis over sizes |
| C77, C78 | whole greedy runs with the real strategies | every parameter tried stays finite and positive |
| C86, C87 | constructors and optimization routines of both greedy classes | case analysis; the last update of a run |
| C90-C92 | `ModelRnd.v`: rounding after every operation | induction over the summation tree, monotonicity of rounding |
| C100-C101 | `ModelRnd2.v`: prefactors, p-type functions, the two averages and the passes with rounding after every operation | relative errors multiply (`within`), absolute ones are carried along; averages are sums with non-negative weights, so bounds on distances bound the exponents |
| C102 | `SpecMask.v`: `kl_masked`, `hidden`; the model is that of C49 | per point, the value is locally that of one branch and the returned derivative that of the other; sums of derivatives |
| C103 | `SpecScript2.v`: the rounds of table_3.py and table_4.py on the models of C49-C51, C85 and C98 | the setting of C49 holds for the objects built; smallest exponent of the file by computation |
| C104 | `SpecFill.v`: `visible`, `open_part`, `masked_part`, `energy`; the model is that of C43-C47 | the masked quotient replaces the density by the model, so the update is an EM step for a completed density: Jensen at used points, ln x <= x - 1 at masked ones |
| C105 | `SpecScript3.v`: a round of atomdb_db.py with any density function, the cells of atomic_density.ipynb, `row_of`, `errors_of` | the setting of C96 holds for the clipped density, rows of C42 at each iterate of C47, sum of the coefficients from C104 with mask 0 |
| C106 | `SpecLine.v`: backtracking readings of a pattern in order of preference, `found` for findall, `stripped`, `joined`, `second_part`; `spaced` of `SpecParse.v` | the scanner of the model returns the first reading: digits are taken greedily and giving some back never helps unless `.` can stand for a digit |
| C107 | `SpecPts.v`: `core_point`, `diffuse_point` | the model sorts the points of both formulas; the refuted theorem compares cosines |
| C108 | `SpecPts.v`: `layout`, `pairs_of`, `moved_to` | lengths fix the four parts of a vector |
| C109 | `SpecScript4.v`: the cells of greedy_atomic_density.ipynb, the orbitals of be.slater | 1s is positive up to r = 2 and 2s from there on, by comparing terms; r phi is bounded; a kept quotient is below 2^1022, so the divergence is at most 1022 times the integral |
| C110 | `SpecScript5.v`: twins, merging, the cells of molecular_density.ipynb | the averages of the update depend on type, distance and exponent only; the model value does not change when twins are merged; induction over the iterations |
| C111 | `SpecShipped.v`: `electron_number`; `SpecFit.v`: `all_above` | the density times r^2 has an integrable derivative, so the trapezoid rule on the grid converges to the integral of C82; C09 gives the sum of the coefficients |
| C112 | `SpecMeas2.v`: values and derivatives of infinite and NaN order | C99 `pow` for such exponents, entry by entry |
| C113 | `SpecNpz.v`: the bytes that `np.savez` writes; `SpecNpz2.v`: damaged files, doubles of Flocq; `SpecZip.v`: archives of stored files; `SpecBin.v`: rounding to double precision | the reader undoes the writer by induction over the archive; the kernel compares the bytes of the shipped files with what would be written, and each word with its decimal number |
| C114 | `SpecRnd3.v`: exact weights and derivatives, bounds of errors; `SpecRnd.v`, `SpecSlater.v` | every operation keeps a bound of the form "k roundings of a number known up to d"; sums of products by the order of summation; exponentials by their relative error; signs by monotone rounding |
| C115 | `SpecRnd4.v`: what the library functions satisfy, exact losses, bounds of errors, integration rules; `SpecRnd.v`, `SpecRnd3.v` | one rounding moves a logarithm by -ln(1-u) and a power by exp(a times that); rules are weighted sums, so errors of the integrand add up with absolute weights; signs and zeros by monotone rounding |
| C116 | `SpecBin64.v`: binary formats at least as wide as doubles, Flocq's numbers of a format, finite numbers and their values, agreement with a real number, library functions, quotients that are not hidden; `SpecRnd.v`, `SpecBin.v` | the theorems of Flocq for each operation; a finite result has finite operands, so agreement goes up the expression; sums of n terms of at most 2^e stay below n 2^e, which is a number of the format |
| C117 | `SpecDisp.v`: a text centred in a column, rows between bars, the errors as written, rounds of the greedy method; iterates and changes of `SpecFit.v`, `SpecStop.v` | induction over the loop with the invariant of C44 (state after n iterations), and over the rounds with the list of errors as it grows |
| C118 | `SpecBinModel.v`: exponentials of a library, distances whose square does not overflow, products that are fused; `SpecBin64.v`, `SpecRnd2.v` | agreement goes up the expression as in C116, with the sign of an overflowing product for the exponent; induction over the tree of additions for dot products, over the passes for fits; the library that rounds correctly from Flocq's rounding of a real number |
| C119 | `SpecSlope.v`: derivative of a basis function, sizes of its two terms, number of roundings, what underflow adds; `SpecRnd2.v`, `SpecBinModel.v` | Coquelicot's rules for the derivative; error rules for rounding, products and sums with a relative and an absolute part, applied up the expression; agreement and magnitudes in formats with overflow as in C118 |
| C120 | `SpecBinSto.v`: subshells of numbers of a format, library of powers and factorials, what stays small; `SpecRnd3.v`, `SpecBinModel.v` | agreement of every operation with the rounded one where finite, overflow of exponents and energies by cases, magnitudes through the sums, correct rounding of Flocq's square root; bounds and signs from C114 |
| C121 | `SpecDescent.v`: points, parameters in one list, exact objective and gradient, bounds of model, derivatives and measures; `SpecRnd4.v`, `SpecSlope.v` | sums of derivatives by the chain rule, the model being linear in coefficients and a sum over exponents; errors of C100 and C119 through the measures (logarithms of quotients for Kullback-Leibler) and the rules of C115 |
| C122 | `SpecBinDescent.v`: points of the grid as numbers of a format; `SpecDescent.v`, `SpecBin64.v` | agreement of models (C118), derivatives (C119), measures and rules (C116) point by point; then the bounds of C121 with the unit roundoff of the format; finite models and derivatives by the magnitudes of C118 and C119 |
| C66-C68 | one-function solutions, NNLS matrix | completing squares / `ln` inequality |

Not modelled at all: plotting, the digits of printed numbers, docstrings, timing, performance, logging
files, `__repr__`-like output, arrays of mixed dtypes (C116 treats each format by itself).

A claim that turns out false is stated as a `_refuted` theorem with a concrete witness;
a claim proved under extra hypotheses or only in part carries the suffix `_partial`.

## 5. Assumptions of each theorem

What `Print Assumptions` lists, by group.  Full names: `ClassicalDedekindReals.sig_not_dec`,
`ClassicalDedekindReals.sig_forall_dec`, `FunctionalExtensionality.functional_extensionality_dep`,
`Classical_Prop.classic`; all from the standard library.

**None (closed under the global context)**

* C09: change_iff, change_raises
* C21: base
* C30: unknown_mode
* C35: electron_count, occupations, whole_numbers
* C36: core, expansion, otherwise_ValueError
* C37: any_column, column_partial, column_refuted, column_shifted
* C38: bad_ratio, bad_value, lengths, no_energy, no_ratio, no_value, unoccupied, well_formed_file
* C39: blank_rest_refuted, steps, stops_partial, truncated_refuted
* C40: case_insensitive, cesium_cation_refuted, loads_partial, missing_file, only_cesium, rejections
* C41: exponents, not_text
* C51: nothing
* C80: cesium_cation_refuted, shipped_files_partial
* C85: any_file, not_text
* C95: reader
* C98: cesium_cation_refuted, loads_partial, silver_anion_refuted
* C103: names
* C105: atoms
* C106: column, count, header, heavy, index, numbers, numbers_only, row, split, strip, words
* C113: archives, damaged, other_names, round_trip, written
* C117: widths

**sig_forall_dec**

* C95: invalid, other_names, truncated

**functional_extensionality_dep, sig_forall_dec**

* C12: squared_nonneg, squared_zero_iff
* C17: tsallis_accepts, tsallis_rejects
* C20: accepts, additive, linear, monotone, nonneg, quadrature, raises, trapezoid
* C21: accepts, equispaced, rejects, uniform_points
* C23: lattice
* C24: accepts, functional, raises, weights_and_integral
* C52: points, points_raise, points_shapes, single_point_refuted
* C53: floats, integers_refuted, next_choices, types
* C54: two_choices, types
* C55: lose_one, types
* C56: integers_partial, integers_refuted, positive
* C57: meaning, separated, unchanged, weight_doubled_refuted, weight_lost_refuted, weight_partial
* C58: best, huge_refuted, total
* C59: extra_refuted
* C60: history
* C61: coefficients, fresh, pick_two_refuted, size_partial
* C62: factor, terminates
* C63: converged_refuted, flags_partial, limit_refuted
* C64: errors_refuted
* C65: consistent_partial, nan_refuted
* C69: finite_partial, nan_refuted
* C85: header_refuted, other_names, shipped_exponents
* C86: origin
* C90: cubic, exact, order, radial
* C92: exact, exact_masked, sign, sum
* C95: fpi, slsqp
* C101: grids
* C108: guesses
* C112: accepts
* C114: homo
* C115: gradient, objective, squared, zero
* C117: greedy_lines, greedy_same
* C119: row

**functional_extensionality_dep, sig_forall_dec, sig_not_dec**

* C06: negative_index_refuted, no_centers, owner_partial
* C08: atomic_accepts_partial, atomic_exceptions, center_1d_refuted, molecular_accepts_partial, molecular_mismatch, molecular_rejects
* C09: change_history_partial, change_refuted, numpy_refuted
* C22: accepts, extra_array_refuted, no_extra, nonneg, nonneg_refuted, origin, points, rejects
* C25: cover_partial, cover_refuted, no_atoms, upper_end_refuted
* C26: cover_partial, cover_refuted, inertia, volume_element
* C27: converges, error, error_any_grid
* C42: cubic_grids, radial_grids
* C90: spherical
* C91: sign
* C107: documented_partial, last, points
* C114: exact
* C115: rules

**classic, functional_extensionality_dep, sig_forall_dec, sig_not_dec**

* C01: atomic_value
* C02: atomic_gradient
* C03: atomic_flag, molecular_flag
* C04: molecular_value
* C05: molecular_gradient
* C07: basis_function_integral, model_integral
* C08: evaluate_accepts, evaluate_rejects, one_value_per_point_partial, one_value_per_point_refuted
* C10: atomic_linear, atomic_nonneg, molecular_linear_nonneg
* C11: permutation, single_center, translation
* C12: accepts, raises, squared_value_and_derivative
* C13: kl_negative_model, kl_value, special_values
* C14: kl_derivative_partial, masked_refuted
* C15: finite_iff_partial, nan_model_refuted, zero_density_refuted
* C16: gibbs
* C17: special_values, tsallis_value_and_derivative
* C18: masked_refuted, tsallis_bounds_kl_partial
* C19: tsallis_limit, tsallis_near_kl
* C20: affine_exact
* C28: errors, normalized, values
* C29: derivative
* C30: core_valence, shape, total
* C31: reference_partial, reference_refuted
* C32: derivative
* C33: kinetic
* C34: integral, orbital_norm
* C42: goodness, integrate, mismatch, negative_model, signs
* C43: sum
* C44: iterates, run
* C45: iterates, run, step
* C46: coefficients, exponents, unnormalised_refuted, unnormalised_slope
* C47: fixed, nothing, nothing_refuted, rejects, result, stop
* C48: flag, nan_refuted, negative_limit_refuted, one_iteration, success_partial
* C49: gradient, one_weight, other_weights
* C50: trust_constr_refuted, trust_constr_run_refuted, used, value
* C51: bounds, default_measure_refuted, problem, result, unknown_args
* C52: base_accepts, base_raises, fpi_accepts, fpi_base, scipy_accepts, scipy_raises
* C64: kl_refuted, ls_refuted
* C66: best_of_three, optimal
* C67: best_partial, other_integral_refuted, plain_refuted, value_partial
* C68: matrix_partial, normalized_refuted
* C70: masked_finite_refuted
* C71: tsallis_gibbs
* C72: measure_flag
* C73: weizsaecker
* C74: decay
* C75: origin_refuted
* C76: update
* C77: kl_returns, kl_run
* C78: ls_run_partial, rising_refuted
* C79: accepts, accepts_mode, errors
* C81: file_to_functions
* C82: electrons, every_file
* C83: element, kinetic_integral
* C84: kinetic_energy
* C86: built, rejects, result, routine
* C87: built, rejects, routine
* C88: limit, rate, stops
* C89: on_center_refuted, stops_partial
* C90: formats, radial_double
* C91: value
* C93: kl_cubic_refuted, kl_radial_partial, ls_best, ls_cubic_refuted, ls_exact_refuted, ls_extend_refuted, ls_radial_partial, ls_shapes, ls_solution
* C94: converges, one_density
* C95: density
* C96: default, grids, nan_stops, run
* C97: readme_refuted, steps
* C98: functions_partial
* C99: fit, kinetic_zeros, scripts, setup, table_1, table_5, tables, zeros
* C100: exact, formats, sign, value
* C101: always, bounds, formula, runs, sign, sum
* C102: coefficients, gradient
* C103: least_squares, run, scripts, setup, tables
* C104: excess, fixed, misses, reported, run, step, sum
* C105: atomdb, errors, notebook
* C107: documented_refuted
* C109: density, notebook, radial
* C110: merge, notebook, twins
* C111: fit, grid
* C112: finite, infinite, nan
* C113: doubles, fpi, slsqp
* C114: density, derivative, kinetic, sign, slopes
* C115: exact, gibbs, goodness, goodness_error, kl, kl_sign, library, order, tsallis
* C116: finite_measures, finite_objective, integrals, measures, negative, no_overflow, objective, operations, overflow, radial, ratio, squares, widen
* C117: fpi_lines, fpi_raise, fpi_same, scipy_final, scipy_lines, scipy_raise, scipy_same, strategies
* C118: dot, far, library, model, no_overflow, runs, runs_sign, sign, step, value
* C119: coefficient, derivative, exact, format_value, formats, library, no_overflow, no_underflow, value
* C120: density, far, function, library, no_overflow, no_overflow_slopes, origin, sign, slope_values, slopes, value, weights
* C121: any, constraint, derivative, exact, kl, measures, quality, squares
* C122: any, constraint, constraint_value, kl, kl_value, no_overflow, quality, quality_value, squares, squares_value

## 6. Parts of the code

| code | modelled in | not modelled |
|------|-------------|--------------|
| `model.py` (all of both classes) | `ModelDens.v` | |
| `measure.py` | `ModelMeas.v`, `ModelMeas2.v`; in rounded arithmetic `ModelRnd4.v` | the abstract `Measure.evaluate` |
| `grid.py` (all four classes) | `ModelGrid.v` | |
| `density.py` | `ModelSlater.v`, `ModelLoad.v`; in rounded arithmetic `ModelRnd3.v`, with overflow `ModelBinSto.v` | properties that hand out stored data unchanged |
| `_slater.py` | `PyText.v`, `ModelParse.v` | numbers are read by a parameter; file opening is a function |
| `parse_ugbs.py` | `PyText.v`, `ModelParse.v` | the same |
| rounding of `integrate`, `evaluate` (all kinds of functions), updates of coefficients and exponents, Slater densities, measures, `ScipyFit.func`, `goodness_of_fit` | `ModelRnd.v` to `ModelRnd4.v`, `ModelDescent.v` (`ScipyFit.func`, `const_norm` and `goodness_of_fit` of Gaussian models); doubles with overflow `ModelBin64.v` (integrals, measures, objective, update), `ModelBinModel.v` (Gaussian models, passes of the fixed point method), `ModelBinDescent.v` (`ScipyFit.func`, `const_norm`, `goodness_of_fit`); `ModelSlope.v` (derivatives with respect to exponents) | overflow in the other parts; all other operations are exact in the model |
| `fit.py` | `ModelFit.v`, `ModelDisp.v` (printed tables) | digits of printed numbers, timing, `minimize` of SciPy (arbitrary) |
| `greedy.py` | `ModelGreedy.v`, `ModelChoice.v` (integer arrays), `ModelDisp.v` (printed tables) | digits of printed numbers, `nnls`, `minimize`, random numbers (arbitrary); 2-D points with one column |
| `data/` | `DataSlater.v`, `DataTar.v` (files of `data.tar`), `DataUgbs.v`, `DataFits.v` (texts of the files, generated), `DataNpz.v` (bytes), `ModelNpz.v` (README.md:98-118) | `anion/ag.an` of `data.tar` after line 80 and its `.fchk` file |
| reading the fitted models (`README.md`) | `ModelJson.v` | escapes, `true`, `false`, `null`, `NaN` in JSON |
| scripts `examples/table/table_1_and_2.py`, `table_5.py`, `table_3.py`, `table_4.py`, `examples/atomdb_db.py`, notebooks `examples/atomic_density.ipynb`, `greedy_atomic_density.ipynb`, `molecular_density.ipynb` | `SpecScript.v`, `SpecScript2.v`, `SpecScript3.v`, `SpecScript4.v`, `SpecScript5.v` | printing, plots, `np.save`; AtomDB itself; the grid, the density and the coordinates of the molecular notebook, which come from other packages |
| `test/`, documentation, packaging | | all |
