# Formal model of RoDeO in Rocq (Coq 8.16.1)

Source: `/repo/src` (C++), read as text. Model and proofs: `rocq/theories`, logical name `Verif`.
Properties: `properties.jsonl`; status and theorem names: `MANIFEST.json`; wrong programs tried against the
theorems: `seeded/LOG.jsonl`.

## 1. Conventions of the model

* **Outcomes.** A C++ call is a total Gallina function returning `Res A := Ok a | Throw e | UB` (`Base.v`).
  `Throw` carries the exception class (`InvalidArgument`, `OutOfRange`, `RuntimeError`, `LogicError`). The model is the
  build with assertions: a failed `assert` (and `abort()`) is `Throw AssertFail`.
  `UB` marks out-of-range raw pointer access, division of integers by zero, and use of members that were never set.
* **Methods that mutate an object** are functions `state -> state * Res out` (`StM.v`: `SM S A`, with
  `get x <-- m ; k` and `run m ; k` for sequencing), so the state left behind by a throwing call is visible.
* **Numbers.** `double` is abstracted by a class `Num T` of operations (`+! -! *! /! <! <=! ==!`, `nabs`, `nlit m e` for
  the literal m*10^e, ...), square root, exponential, logarithm and the like by `NumFun T`. The code is modelled once,
  generically, and instantiated
  - at the reals `RNum`/`RNumFun` (exact arithmetic; every algebraic theorem), and
  - at IEEE-754 binary64 `FNum` (stdlib `SpecFloat`, with NaN and infinities; order theorems and counterexamples).

  Theorems whose proof only uses the order of numbers are proved for every instance with the laws `OrdLaws`.
  Rounding error is *not* covered by the theorems over R; where binary64 behaves differently in a way a user
  notices, a `_refuted` theorem says so.
* **Sizes/indices** are `nat` (or `Z` where negative arguments are accepted). Wrap-around of 32-bit
  unsigned is not modelled unless a property is about it, in which case `mod 2^32` is written.
* **Matrices** keep the column-major flat layout of the code (`data[col*nrows+row]`).
* **Loops** are combinators over `nat` ranges (`loopR`, `sloop`, `sfor`). A `while` loop that may not end has an explicit
  fuel or an option result; the theorems say that the result does not depend on it, or that the loop is still running.
* **Randomness** (mt19937, rand, shuffle) is an argument: a stream of draws in [0,1) or an arbitrary
  permutation; theorems quantify over all of them.
* **Threads**: the OpenMP loops are given by the order (or interleaving) of their critical steps; theorems quantify over it.
* **User functions and programs** are arguments: functions that may throw, or programs that transform a file system.
* **Text** is `list ascii` (`str`).
* **Theorem names**: `Cxx_name`. `_refuted` means the property one would expect is false for the code and the theorem is the
  machine-checked witness (or the general statement of what happens instead). No theorem is `_partial` at present.

## 2. File layout

* `Base.v` outcomes, loops, list update; `StM.v` state and exceptions; `Num.v` numbers; `RealNum.v`, `NumFloat.v` instances;
  `RSpec.v`, `MatSpec.v`, `DetSpec.v` sums, matrices as functions, determinants.
* `*Model.v` model definitions, each citing file and lines in `/repo`.
* `*Spec.v` small independent specifications; `*Proofs*.v`, `*Real.v` and the other files lemmas; `Props*.v` the theorems of
  `MANIFEST.json`, each with an `Example` showing that its hypotheses are met by a concrete case (for a `_refuted` theorem the
  witness is the example) and a `Print Assumptions`.

## 3. What is modelled, and how each property is proved

| model file | code | properties | method |
|---|---|---|---|
| `VecModel` | `LinearAlgebra/vector.cpp` | C01, C04, C06-C10, C73 | pointwise algebra over R; list lemmas; order laws for R and binary64; Cauchy-Schwarz |
| `MatModel` | `LinearAlgebra/matrix.cpp` (editing, products, LHS) | C02, C04, C05, C11-C16 | refinement to lists of rows / index functions; permutation argument per column |
| `MatModel`, `LinSolverModel` | Cholesky, LU, inverse, `linear_solver.cpp` | C17-C24 | loop invariants; existence by Schur complement induction; P*A = L*U; state machine invariant |
| `BoundsModel` | `Bounds/bounds.cpp` | C03 | invariant over call lists |
| `CorrModel`, `CorrObj` | `CorrelationFunctions/*.cpp` | C25-C28 | exponential algebra; positive definiteness by Schur products and a Levy-Khinchin style integral; derivatives |
| `DataModel` | `SurrogateModels/surrogate_model_data.cpp` | C33-C35, C66, C74 | multiset reasoning, refinement to lists |
| `KrigModel`, `CorrModel` (ridge regression) | `kriging_training.cpp`, `linear_regression.cpp`, `surrogate_model.cpp` | C29-C32, C68, C69, C74 | refinement of a whole session to closed formulas, linear algebra over functions |
| `TrainModel` | `kriging_training.cpp:train` | C67, C75, C91 | invariant over random searches and thread orders |
| `HistModel`, `DesignModel` | `OptimizationHistory`, `globalOptimalDesign`, `design.cpp` | C36-C39, C66, C72, C76, C77 | refinement to lists, invariants over op lists |
| `AcqModel`, `ErfMath` | acquisition functions, `design_bo.cpp` | C46-C48, C70 | real analysis (Coquelicot integrals) |
| `OptModel` | `optimization*.cpp`, `efficient_global_optimization.cpp` | C40-C45, C49, C71, C72 | invariants over whole runs, all draws and schedules |
| `EaModel` | `ea_individual/population/optimizer.cpp`, `general_purpose_optimizer.cpp` | C50-C55, C97 | invariants over all random outcomes |
| `GradModel` | `gradient_optimizer.cpp` | C56, C57 | loop invariants, divergence, mean value theorems |
| `StrModel`, `KeyModel` | string, XML and configuration-key helpers, constraint definitions | C58-C62 | string lemmas, inductive grammars |
| `ApiModel` | the C++ API (`Rodeo`-level calls, design of experiments, run) | C63-C65, C78-C81 | invariant over call histories, composition with `OptModel` |
| `DriverModel` | `driver_xml.cpp` | C82-C87, C89, C90 | inductive description of files; both directions and uniqueness; composition with `OptModel` |
| `ExtModel` | external evaluation in `objective_function.cpp`, `constraint_functions.cpp` | C88 | programs as file-system transformers |
| `CsvModel` | CSV reading and writing in `matrix.cpp`, `vector.cpp`, hyper-parameter files | C92-C95 | inductive description of texts; both directions; rounding to printed decimals |
| `SetModel` | the setters and checks of the general purpose, gradient and evolutionary optimisers | C96 | invariant over call lists; exact characterisation of refused settings |
| `EaFileModel` | population files and warm starts of the evolutionary optimiser | C98, C99 | text read-back composed with the run of `EaModel` |
| `RunFileModel` | the history and report files written during an optimisation | C100 | refinement of the run with files to the run of `OptModel`; invariant over all intermediate disks |
| `StudyModel` | a whole study: optimiser, surrogate models and data files together | C101 | invariant relating files, models and evaluated designs; induction over the iterations; termination from the parts |
| `TesterModel` | the test of a surrogate model: set-up, training, results file, errors | C102 | composition of the data, training and file theorems; invariant over call sequences for repeated tests |
| `MainModel` | the program: arguments of `main`, configuration file, study with surrogate models, exit status, the design vector saved at the start | C103 | simulation by `StudyModel` when no two functions share a file; case analysis over the reader of C83-C90 for the refusals |
| `DesignFileModel` | the vector of a design saved to a file or as a line of cells, the report of a design, headings, descriptions | C104 | texts of numbers (`number_alone`) through the readers of C93 and C95; arithmetic of the 64 and 32 bit conversions for the borders |
| `ModeModel` | evaluation and data-adding modes of an objective function, `addDesignToData` in both forms, `evaluateDesign` in any mode, the gradient of the best design read from a table | C105 | invariant over call sequences; reduction to C35 (samples offered to a Kriging model) and C88 (external evaluation); C93 for the table |
| `VecModel`, `MatModel`, `OptModel` at the instance `FNum` (doubles) | random filling, Latin hypercube, denormalisation, discrete values, one design of the optimiser; `FloatSpec` gives the real number of a double, `FloatFlocq` relates the standard library's `SpecFloat` operations to Flocq's `BinarySingleNaN` | C106 | error analysis with Flocq (rounding to nearest even, relative errors, neighbours of a number), then the invariant 'between 0 and 1/d' over searches, schedules and the ascent |
| `OptModel` at `FNum`: set-up, start of a run, loop | the state of a whole run in doubles: trust region, best design, history, evaluated points (`FloatRun`) | C107 | a Hoare logic for the state monad; invariant of set-up, start and iterations (finite sizes in (0,1], designs below overflow, normalised best design without NaN), then C106 at each iteration |
| `QueryModel` | counting the samples in a box, predictions for a table of points (surrogate_model.cpp:136-158, 174-189) | C108 | induction over the rows; the count against the list of positions of the samples in the box; `C108_count_training_refuted`: with a validation set the count is over the first rows of the file, not over the training rows |
| `GradStepModel` | the gradient step: window, scaled gradient, search, counters, fallback (optimization.cpp:336-388, 457-664) | C109 | induction over the candidates (best of those on the falling side) and over the steps; the scaled scalar product is the first order change in the user's units; `C109_always_a_design_refuted` |
| `OutSampleModel` | test data of a model and its out-of-sample error (surrogate_model.cpp:127-134, 162-167, 238-255, 312-318; `tryOnTestData` is `try_test` of `TesterModel`) | C110 | from `TesterProofs`: invariant of the loop over the test rows; the states that are not reset by proofs for all files: `C110_values_forgotten`, `C110_not_normalised` |

### Not modelled

* Logging, printing, HTML output, display options; the OpenBLAS variants of the vector and matrix kernels (the plain loops are modelled).
* Gradient- and tangent-enhanced and multi-fidelity surrogate models beyond their selection, data layout (C66) and the fact that
  they are never bound (C90). `LowFi` modes. The outcome of saving the design vector at the start of a run is part of the input `ini` in
  `OptModel` and `DriverModel` and explicit in `MainModel`.
* CSV texts inside the API and data reader models (they work on matrices; the texts are in `CsvModel`, C92-C95); hexadecimal, `inf` and `nan` number syntax;
  locale; memory exhaustion; integer wrap-around except where a property mentions it.
* The random number generators themselves (their outputs are quantified over); statistical properties of the draws.
* Rounding errors of `double` in the theorems over R; `std::erf` is the exact integral (`ErfMath.v`).
* In `TesterModel` (C102): log messages, the flags for directional derivatives (no public function of the tester sets them), warm starts of the
  test (modelled, no theorem).
* In `MainModel` (C103): the text of the tables (they are matrices; the texts are C92-C94), files other than the tables, log output, HTML display.
  Two functions that use the same file of training data are in the model, but the theorem about completed runs excludes them.
* In `ModeModel` (C105): the multi-level surrogate model (its calls are an arbitrary outside function, proved never to be made); the surrogate model is a Kriging model.
* In `StudyModel` (C101): warm starts and gradient-enhanced models; a user-defined constraint that throws inside the acquisition
  function reads as 0.
* The build without assertions.

## 4. Trusted base

* Coq's kernel (8.16.1). No axioms of our own, no plugins, no switched-off checks, no functors or module types.
* The hand translation C++ -> Gallina. Each definition cites the lines it models and says where it simplifies.
* Axioms, as listed by `Print Assumptions` for each theorem (the classes are used in section 5):
  - **0**: none ("Closed under the global context");
  - **R**: `ClassicalDedekindReals.sig_forall_dec`, `ClassicalDedekindReals.sig_not_dec`,
    `FunctionalExtensionality.functional_extensionality_dep` (the standard library's real numbers); `R-` is the same without
    `sig_not_dec`;
  - **RC**: those and `Classical_Prop.classic` (real analysis of the standard library and Coquelicot).

  No other axioms are used; all four belong to the standard library.

## 5. Results

### 5.1 Theorems per property

Status, file and theorems; the class of axioms (section 4) follows each name.

* **C01 Normalisation round trip** (proved; `PropsStat.v`, `PropsVec.v`): `C01_scalar_bounds` R, `C01_normalize_then_denormalize` R, `C01_denormalize_then_normalize` R, `C01_box_maps_to_unit_box` R, `C01_fast_variants_agree` R.
* **C02 Matrix normalisation agrees with row normalisation** (proved; `PropsMat.v`): `C02_normalizeMatrix_row_by_row` R, `C02_normalizeMatrix_rejects` R.
* **C03 Bounds object validity over any call history** (proved; `PropsBounds.v`): `C03_after_successful_setBounds` R, `C03_stored_values` 0, `C03_constructors` R, `C03_unset_generates_nothing` 0, `C03_setVec_rejects` R, `C03_throwing_setBounds_keeps_old_bounds_refuted` 0, `C03_setDimension_after_setBounds_refuted` 0, `C03_nan_bounds_rejected_refuted` 0, `C03_constructor_sizes_refuted` 0.
* **C04 Random points stay in their box** (proved; `PropsMat.v`, `PropsVec.v`): `C04_mat_fillRandom` R, `C04_mat_fillRandom_bounds` R, `C04_mat_LHS_rejects` R, `C04_vec_fillRandom` R, `C04_vec_fillRandom_bounds` R, `C04_vec_randomBetween` R.
* **C05 Latin hypercube stratification** (proved; `PropsMat.v`): `C05_latin_hypercube` R.
* **C06 Vector slicing and concatenation laws** (proved; `PropsVec.v`): `C06_head_tail` 0, `C06_head_tail_throw` 0, `C06_appendVector` 0, `C06_appendVector_throws` 0, `C06_copyVector` 0, `C06_copyVector_throws` 0, `C06_resize` 0, `C06_push_back` 0.
* **C07 Minimum and maximum search** (proved; `PropsVec.v`): `C07_min_max_real` R, `C07_min_max_binary64` 0, `C07_empty_throws` 0, `C07_nan_refuted` 0.
* **C08 Sorted order and interval lookup** (proved; `PropsVec.v`): `C08_sort_real` R, `C08_sort_binary64` 0, `C08_sort_nan_undefined` 0, `C08_is_sorted_real` R, `C08_is_sorted_binary64` 0, `C08_findInterval` R, `C08_findInterval_unordered` R.
* **C09 Quantile bounds and monotonicity** (proved; `PropsVec.v`): `C09_quantile_between_extremes` R, `C09_quantile_monotone` R, `C09_quantile_endpoints` R, `C09_quantile_value` R, `C09_quantile_rejects` R.
* **C10 Norm axioms** (proved; `PropsVec.v`): `C10_norm_nonneg` R, `C10_norm_definite` R, `C10_norm_homogeneous` R, `C10_norm_triangle` R, `C10_norm_value` R, `C10_unit_vector` R.
* **C11 Row editing refines a list of rows** (proved; `PropsMat.v`): `C11_row_edits_refine_list` 0, `C11_add_then_delete_restores` 0, `C11_getRow` 0, `C11_rejected_addRow_breaks_storage_refuted` 0.
* **C12 Column editing** (proved; `PropsMat.v`): `C12_addColumn` 0, `C12_addColumn_to_empty` 0, `C12_addColumn_throws` 0, `C12_getCol` 0, `C12_setCol` 0.
* **C13 Submatrix and resize** (proved; `PropsMat.v`): `C13_submat` 0, `C13_resize` 0.
* **C14 Transpose and concatenation** (proved; `PropsMat.v`): `C14_transpose` 0, `C14_transpose_involutive` 0, `C14_concat_rows` 0, `C14_concat_cols` 0, `C14_concat_associative` 0.
* **C15 Matrix products** (proved; `PropsMat.v`): `C15_matVec` R, `C15_matMat` R, `C15_product_then_vector` R, `C15_product_associative` R, `C15_transpose_of_product` R.
* **C16 eye() only writes the diagonal** (proved; `PropsMat.v`): `C16_eye` 0, `C16_eye_of_new_matrix_is_identity` R, `C16_eye_is_identity_refuted` R.
* **C17 Cholesky factorisation soundness and completeness** (proved; `PropsLin.v`): `C17_cholesky_sound` R, `C17_cholesky_complete` R, `C17_cholesky_success_means_posdef` R, `C17_cholesky_rejects_non_square` R.
* **C18 Cholesky accepts singular matrices** (proved; `PropsLin.v`): `C18_accepted_singular_has_zero_pivot` R, `C18_success_implies_invertible_refuted` R, `C18_binary64_solution_not_finite_refuted` 0.
* **C19 Cholesky solve** (proved; `PropsLin.v`): `C19_cholesky_solve` R, `C19_cholesky_system_solves` R, `C19_wrong_sizes_rejected` R.
* **C20 Determinant and log-determinant agree** (proved; `PropsLin.v`): `C20_determinant_and_log` RC.
* **C21 LU factorisation with partial pivoting** (proved; `PropsLin.v`): `C21_lu` R, `C21_lu_rejects_non_square` R.
* **C22 LU solve and inversion** (proved; `PropsLin.v`): `C22_lu_solve` R, `C22_lu_system_solves` R, `C22_invert` R, `C22_invert_throws` R, `C22_invert_rejects_non_square` R.
* **C23 Absolute pivot threshold rejects invertible matrices** (proved; `PropsLin.v`): `C23_invertible_rejected_refuted` R, `C23_small_first_column_rejected` R.
* **C24 Factorisation flag protocol** (proved; `PropsLin.v`): `C24_history_is_run` 0, `C24_cholesky_flag` 0, `C24_lu_flag` 0, `C24_solve_without_factorisation` 0, `C24_setMatrix_drops_factorisation` 0, `C24_flag_after_setDimension_refuted` 0, `C24_lu_flag_after_setDimension_refuted` 0.
* **C25 Correlation matrix shape** (proved; `PropsCorr.v`): `C25_gaussian_matrix` RC, `C25_exponential_matrix` RC, `C25_correlation_vector` RC, `C25_rejected` RC, `C25_parameter_lengths_checked_refuted` RC.
* **C26 Correlation matrices are positive semidefinite** (proved; `PropsCorr.v`): `C26_gaussian_kernel_psd` RC, `C26_exponential_kernel_psd` RC, `C26_gaussian_cholesky_succeeds` RC, `C26_exponential_cholesky_succeeds` RC.
* **C27 Correlation derivatives** (proved; `PropsCorr.v`): `C27_gaussian_dot` RC, `C27_gaussian_dotdot` RC, `C27_mixed_derivative_is_negative` RC, `C27_exponential_dot` RC.
* **C28 Hyper-parameter round trip** (proved; `PropsCorr.v`): `C28_exponential_round_trip` RC, `C28_gaussian_round_trip` RC, `C28_check` R, `C28_setter_accepts_invalid_refuted` RC.
* **C29 Kriging reproduces training data** (proved; `PropsKrig.v`): `C29_prediction_at_training_points` RC, `C29_interpolation` RC, `C29_with_validation_split` RC.
* **C30 Kriging equivariance** (proved; `PropsKrig.v`): `C30_linear_in_outputs` RC, `C30_affine_outputs` RC, `C30_sample_order` RC, `C30_shift_with_linear_part_refuted` RC.
* **C31 Kriging generalized least squares mean** (proved; `PropsKrig.v`): `C31_generalised_least_squares` RC.
* **C32 Ridge regression optimality** (proved; `PropsKrig.v`): `C32_ridge_regression` R, `C32_any_regularisation` R, `C32_initialisation_resets_regularisation` R.
* **C33 Training/validation split is a partition** (proved; `PropsData.v`): `C33_split_is_partition` R, `C33_no_validation` R, `C33_second_read_uses_old_validation_rows` R, `C33_partition_after_second_read_refuted` 0, `C33_ratio_one_rejected` R.
* **C34 Data column layout** (proved; `PropsData.v`): `C34_column_layout` R, `C34_wrong_columns_rejected` R, `C34_normalization` R, `C34_gradient_chain_rule` R-.
* **C35 New samples never duplicate** (proved; `PropsKrig.v`): `C35_sequence_of_samples` RC, `C35_no_duplicates` R-, `C35_wrong_size_rejected` RC.
* **C36 Global optimum is the best feasible design** (proved; `PropsHist.v`): `C36_reported_optimum` 0, `C36_feasible_report_with_any_data` 0, `C36_rejected` 0, `C36_box_binding` 0.
* **C37 Best feasible objective never worsens** (proved; `PropsHist.v`): `C37_best_never_worsens` 0.
* **C38 History rows round-trip** (proved; `PropsHist.v`): `C38_update_appends_one_row` 0, `C38_appending_many` 0, `C38_round_trip` 0, `C38_setData` 0.
* **C39 Improvement accounting** (proved; `PropsOpt.v`): `C39_relative_to_initial_best` R, `C39_positive_exactly_when_better` R, `C39_first_feasible_becomes_reference` R, `C39_recorded_improvements` R.
* **C40 Optimisation loop performs exactly N evaluations** (proved; `PropsOpt.v`): `C40_evaluations_and_rows` 0, `C40_nan_aborts` 0, `C40_whole_run` R.
* **C41 Retraining schedule** (proved; `PropsOpt.v`): `C41_retraining_schedule` 0, `C41_schedule_values` 0, `C41_frequency_zero_refuted` 0.
* **C42 Trust-region and sigma factors stay in range** (proved; `PropsOpt.v`): `C42_trust_region_is_sub_box` R, `C42_length_and_sigma` R, `C42_success_is_a_new_best_design` R, `C42_maximal_length_refuted` R, `C42_sigma_refuted` 0.
* **C43 Discrete parameters are rounded to the nearest admissible value** (proved; `PropsOpt.v`): `C43_grid` R, `C43_rounding` R.
* **C44 Most promising design search** (proved; `PropsOpt.v`): `C44_single_thread` 0, `C44_every_schedule_improves` 0, `C44_best_candidate_refuted` R, `C44_loop_is_the_search` 0.
* **C45 Gradient ascent of the acquisition function** (proved; `PropsOpt.v`): `C45_ascent` R, `C45_ascent_binary64` 0.
* **C46 Normal probabilities** (proved; `PropsAcq.v`): `C46_normal_cdf` RC, `C46_monotone` RC, `C46_below_and_above` RC, `C46_density` RC.
* **C47 Expected improvement is non-negative and vanishes without uncertainty** (proved; `PropsAcq.v`): `C47_expected_improvement` RC, `C47_monotone` RC.
* **C48 Feasibility probability product** (proved; `PropsAcq.v`): `C48_feasibility_weighting` RC, `C48_user_constraints_are_a_switch` RC.
* **C49 Feasibility flags** (proved; `PropsOpt.v`): `C49_feasible_design` R, `C49_initial_rows` R, `C49_evaluated_rows` R.
* **C50 Evolutionary individuals stay inside the bounds** (proved; `PropsEa.v`): `C50_genes_in_box` R, `C50_solution` R, `C50_child` R.
* **C51 Fitness values** (proved; `PropsEa.v`): `C51_fitness` R, `C51_equal_values_rejected` R, `C51_tiny_values_rejected` R, `C51_distinct_values_rejected_refuted` 0.
* **C52 Selection probabilities** (proved; `PropsEa.v`): `C52_probabilities` R, `C52_death` R, `C52_selection` R, `C52_binary64_selection_refuted` 0.
* **C53 Evolutionary identifiers and elitism** (proved; `PropsEa.v`): `C53_identifiers` 0, `C53_removal` 0, `C53_removal_of_unknown` 0, `C53_best_is_reported` R, `C53_best_child_refuted` 0, `C53_best_removed_refuted` 0, `C53_parent_search_stuck` 0, `C53_endless_run_refuted` 0.
* **C54 Population extreme tracking** (proved; `PropsEa.v`): `C54_extremes` 0, `C54_extremes_of_run` 0, `C54_no_positive_value_refuted` 0, `C54_second_run_refuted` 0.
* **C55 Population size over generations** (proved; `PropsEa.v`): `C55_sizes` 0.
* **C56 Gradient optimizer descent** (proved; `PropsGrad.v`): `C56_line_search` R, `C56_line_search_terminates_iff` R, `C56_terminates_with_gradient` R, `C56_endless_at_minimum_refuted` R, `C56_run` R, `C56_no_step_reports_default_refuted` R, `C56_box_ignored_refuted` R, `C56_budget_ignored_refuted` R, `C56_finite_difference_ascent_refuted` R.
* **C57 Finite differences** (proved; `PropsGrad.v`): `C57_central_error` RC, `C57_central_exact` R, `C57_forward_dropped_refuted` 0, `C57_forward_run_refuted` R, `C57_zero_coordinate_hangs_refuted` 0.
* **C58 XML tag extraction** (proved; `PropsStr.v`): `C58_extract` 0, `C58_extract_fails` 0, `C58_contents` 0, `C58_contents_total` 0, `C58_document` 0, `C58_single` 0, `C58_repeated_refuted` 0.
* **C59 XML generate/parse round trip** (proved; `PropsStr.v`, `PropsStrVec.v`): `C59_string` 0, `C59_string_roundtrip` 0, `C59_int` 0, `C59_int_roundtrip` 0, `C59_double` R, `C59_double_roundtrip` R, `C59_small_lost_refuted` R, `C59_vector_roundtrip` R, `C59_nested_refuted` 0, `C59_string_vector` 0, `C59_string_vector_missing` 0, `C59_string_vector_hidden_refuted` 0.
* **C60 Configuration keyword presence** (proved; `PropsKey.v`): `C60_int` R, `C60_double_absent_set` R, `C60_double_present` R, `C60_zero_missing_refuted` R, `C60_string` R, `C60_stale_refuted` R.
* **C61 ON/OFF switches** (proved; `PropsKey.v`): `C61_on` 0, `C61_off` 0, `C61_never_both` 0, `C61_equal` 0, `C61_equivalence` 0.
* **C62 Constraint definition parsing** (proved; `PropsKey.v`): `C62_parsed` R, `C62_value` R, `C62_refused` R, `C62_split_exists` 0, `C62_garbage_refuted` R.
* **C63 API box constraints** (proved; `PropsApi.v`): `C63_first_box` R, `C63_appends` 0, `C63_blocked` 0, `C63_retry_refuted` 0.
* **C64 API training data file name** (proved; `PropsApi.v`): `C64_ignored` 0, `C64_stored` 0, `C64_expected_refuted` 0, `C64_samples_lost` R.
* **C65 Constraint identifiers** (proved; `PropsApi.v`): `C65_in_order` 0, `C65_without_dimension` 0, `C65_repeated_name` R, `C65_after_bounds` R.
* **C66 Design sample layout** (proved; `PropsHist.v`): `C66_objective_samples` 0, `C66_objective_samples_rejected` 0, `C66_constraint_samples` 0, `C66_constraint_tangent_sample_uses_design_ID` 0, `C66_tangent_row_is_the_constraints_refuted` 0, `C66_reader_agrees` 0.
* **C67 Hyper-parameter selection by validation error** (proved; `PropsTrain.v`): `C67_evaluation_is_a_function` 0, `C67_validation_objective` RC, `C67_failing_candidate_preferred` RC, `C67_likelihood_objective` RC, `C67_candidates_factorise` RC.
* **C68 Predictive variance** (proved; `PropsKrig.v`): `C68_predictive_variance` RC.
* **C69 In-sample error** (proved; `PropsKrig.v`): `C69_in_sample_error` RC, `C69_in_sample_error_with_split_refuted` RC.
* **C70 Probability of improvement** (proved; `PropsAcq.v`): `C70_probability_uses_stored_mean` RC, `C70_second_call` RC, `C70_probability_of_improvement_refuted` RC.
* **C71 Evaluated designs are admissible** (proved; `PropsOpt.v`): `C71_evaluated_designs_are_admissible` R, `C71_in_box_binary64_refuted` 0.
* **C72 Reported optimum of a run** (proved; `PropsOpt.v`): `C72_reported_optimum` R, `C72_optimum_in_box_refuted` 0.
* **C73 Vector statistics and box membership** (proved; `PropsStat.v`): `C73_is_between` R, `C73_mean` R, `C73_standard_deviation` R, `C73_empty_throws` R.
* **C74 Test data and full data** (proved; `PropsStat.v`, `PropsTest.v`): `C74_test_data` R, `C74_wrong_columns_rejected` R, `C74_revert_to_full_data` R, `C74_test_results` RC.
* **C75 Training of the Kriging model** (proved; `PropsTrain.v`): `C75_trained_model` RC, `C75_thread_order` R, `C75_budget` RC, `C75_budget_exhausted` RC, `C75_second_training_throws` RC, `C75_warm_start` RC.
* **C76 Crowding factor** (proved; `PropsCrowd.v`): `C76_crowding_factor` R, `C76_zero_means_equal` R-, `C76_few_rows_refuted` R.
* **C77 Dimension of a design** (proved; `PropsCrowd.v`): `C77_design_dimension` 0.
* **C78 API design of experiments files** (proved; `PropsApi.v`): `C78_files` R, `C78_interrupted` R.
* **C79 API optimisation study** (proved; `PropsApi.v`): `C79_study` R, `C79_study_with_doe` R.
* **C80 Constraint expressions of the API** (proved; `PropsApi.v`): `C80_accepted` R, `C80_only` R, `C80_refused` R, `C80_added` R.
* **C81 API run refuses incomplete settings** (proved; `PropsApi.v`): `C81_incomplete` 0.
* **C82 Study described by a configuration file** (proved; `PropsDriver.v`): `C82_read` R, `C82_only` R, `C82_one` R.
* **C83 Constraint blocks of a configuration file** (proved; `PropsDriver.v`): `C83_one_line` R, `C83_unclosed` R, `C83_blocks` 0, `C83_closing_line_refuted` R, `C83_unclosed_refuted` R.
* **C84 Only a study that was read can be run** (proved; `PropsDriver.v`): `C84_refused` R, `C84_missing` R, `C84_other_type` R, `C84_second_reading_fails` R.
* **C85 Name of a configured study** (proved; `PropsDriver.v`): `C85_name` R, `C85_name_refuted` R.
* **C86 Training iterations of configured constraints** (proved; `PropsDriver.v`): `C86_constraint_iterations` R, `C86_own_iterations_refuted` R.
* **C87 Parameters of a configuration file** (proved; `PropsDriver.v`): `C87_missing_bound` R, `C87_missing_bound_refuted` R, `C87_parameters` R.
* **C88 Evaluation by an external program** (proved; `PropsExt.v`): `C88_command` 0, `C88_value` R, `C88_failures` R, `C88_constraint` R, `C88_function` R, `C88_files` R, `C88_design_file` 0, `C88_leftover` R, `C88_no_program` R, `C88_box_refuted` R, `C88_stale_refuted` R.
* **C89 Optimisation study through a configuration file** (proved; `PropsDriver.v`): `C89_study` R.
* **C90 Models with derivatives in a configuration file** (proved; `PropsDriver.v`): `C90_objective` R, `C90_constraint` R.
* **C91 What the training of the Kriging model minimises** (proved; `PropsTrain.v`): `C91_likelihood_objective` RC, `C91_validation_objective` RC.
* **C92 Data written to a file and read back** (proved; `PropsCsv.v`): `C92_saved_and_read` R, `C92_kept_exactly` R, `C92_header_refused` R, `C92_not_writable` R, `C92_no_rows` R, `C92_box_refuted` R.
* **C93 What a data file means** (proved; `PropsCsv.v`): `C93_matrix` R, `C93_failures` R, `C93_garbage_refuted` R, `C93_blank_line` R, `C93_final_comma` R.
* **C94 Samples appended to a data file** (proved; `PropsCsv.v`): `C94_append` R, `C94_created` R, `C94_many` R, `C94_refused` 0, `C94_read` R, `C94_sample_rounding` R, `C94_matrix_step` R, `C94_incomplete_line_refuted` R.
* **C95 Hyper-parameters kept in a file** (proved; `PropsCsv.v`): `C95_column` R, `C95_column_fails` R, `C95_saved_and_read` R, `C95_hyper_parameters` R, `C95_other_size_ignored` R, `C95_unreadable` R.
* **C96 Settings of the built-in optimisers** (proved; `PropsSet.v`): `C96_ea_accepts` R, `C96_ea_settings` R, `C96_ea_bounds` R, `C96_ea_refused` R, `C96_ea_started` R, `C96_mutation_unset_refuted` R, `C96_box_order_refuted` R, `C96_late_dimension_refuted` R, `C96_gradient_accepts` R, `C96_gradient_settings` R, `C96_gradient_bounds_and_start` R, `C96_gradient_refused` R, `C96_gradient_started` 0, `C96_negative_budget_refuted` 0.
* **C97 How a child of the evolutionary optimiser is made** (proved; `PropsSet.v`): `C97_gene` R.
* **C98 A population file holds exactly the individuals it says** (proved; `PropsEaFile.v`, `PropsTight.v`): `C98_meaning` R, `C98_unreadable_line` R, `C98_no_file` R, `C98_write_refused` 0, `C98_round_trip` R, `C98_unrated_refuted` R, `C98_missing_genes_refuted` 0, `C98_used_population_refuted` 0, `C98_header` 0.
* **C99 A warm start continues from the restart file** (proved; `PropsEaFile.v`, `PropsTight.v`): `C99_restart_file` R, `C99_write_refused` 0, `C99_warm_run` R, `C99_warm_refused` R, `C99_identifiers_refuted` 0, `C99_outside_refuted` 0, `C99_warm_used` 0.
* **C100 The files of a study agree with what was recorded whenever the run stops** (proved; `PropsRunFile.v`): `C100_files_at_any_stop` R, `C100_every_moment` R, `C100_never_both_lost` R, `C100_files_read_back` R, `C100_unwritable` R, `C100_history_emptied_refuted` R.
* **C101 A whole study does what its parts promise** (proved; `PropsStudy.v`, `PropsTight.v`): `C101_study` RC, `C101_early_stop` RC, `C101_terminates` RC, `C101_training` RC, `C101_constraint_training` RC.
* **C102 The test of a surrogate model** (proved; `PropsTester.v`): `C102_kriging_test` RC, `C102_ordinary_after_universal_refuted` RC, `C102_linear_split` RC, `C102_linear_test` RC, `C102_second_test_refuted` RC, `C102_file_names` RC, `C102_refused` RC, `C102_ratio` RC, `C102_enhanced_refuted` RC, `C102_unbound` RC, `C102_linear_error_refuted` RC.
* **C103 The program from its arguments to its exit status** (proved; `PropsMain.v`): `C103_no_argument` 0, `C103_more_arguments` RC, `C103_wrong_name` RC, `C103_missing_file` RC, `C103_unread` RC, `C103_program` RC, `C103_finishes` RC, `C103_unwritable` RC, `C103_derivatives` RC, `C103_no_table` RC.
* **C104 The files and texts of a design** (proved; `PropsDesignFile.v`): `C104_vector` R, `C104_csv` R, `C104_refused` R, `C104_csv_empty_refuted` R, `C104_report_lost_refuted` 0, `C104_report` 0, `C104_report_unclear_refuted` R-, `C104_heading` 0, `C104_heading_negative` 0, `C104_boxed` 0, `C104_described` R, `C104_long_tag_refuted` R.
* **C105 Modes of a function, designs added to its data, and the gradient of the best design** (proved; `PropsMode.v`): `C105_set_mode` 0, `C105_evaluation` R, `C105_modes` RC, `C105_multi_level_refuted` RC, `C105_refused` RC, `C105_added` RC, `C105_derivatives_refused` RC, `C105_gradient` R, `C105_gradient_refused` R, `C105_gradient_value_refuted` R, `C105_gradient_neighbour_refuted` R.
* **C106 Where rounding can put a design: exactly inside for random draws, a rounding error outside for designs and samples** (proved; `PropsRounding.v`): `C106_random_number` RC, `C106_random_vector` RC, `C106_random_matrix` RC, `C106_latin_hypercube` RC, `C106_latin_hypercube_refuted` RC, `C106_denormalize` RC, `C106_denormalize_refuted` RC, `C106_discrete_values` RC, `C106_upper_value_missing_refuted` RC, `C106_value_above_refuted` RC, `C106_chosen_design` RC, `C106_run_above_upper_bound_refuted` RC, `C106_local_search_skipped_refuted` RC.
* **C107 Whole runs in doubles stay in the box up to a rounding error** (proved; `PropsRoundRun.v`): `C107_run_in_box` RC, `C107_trust_region` RC, `C107_history` RC.
* **C108 Counting samples in a box and predicting tables of points** (proved; `PropsQuery.v`): `C108_count` R, `C108_count_split` R, `C108_count_training_refuted` R, `C108_larger_box` R, `C108_count_refuses` R, `C108_predictions` 0, `C108_prediction_fails` 0, `C108_linear` 0.
* **C109 The gradient step of the optimiser** (proved; `PropsGradStep.v`): `C109_step` R, `C109_no_gradient` R, `C109_stays_off` R, `C109_never_in_a_run` R, `C109_five_steps` R, `C109_models_refuse` R, `C109_always_a_design_refuted` R.
* **C110 The error of a surrogate model on its test data** (proved; `PropsOutSample.v`): `C110_value` R, `C110_refused` R, `C110_all_or_nothing` R, `C110_values_forgotten` R, `C110_not_normalised` R.

### 5.2 Where the code does not do what a user expects

Each entry is a theorem (in brackets), not only an observation.

* **Vectors and matrices.** `min`/`max` ignore NaN in a position-dependent way [C07_nan_refuted]; a rejected `addRow` leaves the
  storage unusable [C11_rejected_addRow_breaks_storage_refuted]; `eye()` keeps old off-diagonal entries [C16_eye_is_identity_refuted].
* **Linear algebra.** Cholesky accepts singular matrices with a zero last pivot and the solution is then not finite [C18]; LU rejects
  invertible matrices with small entries [C23]; the factorisation flag survives `setDimension` [C24].
* **Bounds.** A throwing `setBounds` destroys the old bounds, `setDimension` keeps bounds of another length, NaN bounds are accepted,
  a constructor does not compare sizes [C03].
* **Correlation and Kriging.** Lengths of hyper-parameter vectors are not checked before raw access [C25]; the mixed derivative has the
  opposite sign of the derivative it is named after [C27]; setters accept values the check refuses [C28]; with the linear part a shift of
  the outputs does not shift the predictions [C30]; initialisation resets the regularisation [C32]; reading data twice mixes old
  validation rows into the new partition [C33]; the in-sample error after a split compares with the wrong rows [C69].
* **Training.** A candidate whose factorisation fails wins under the validation error [C67]; every training divides the iteration
  budget by the number of threads for good, until training throws [C75]; a model trained with validation rows cannot be trained again;
  a warm start ignores the search box and keeps the split; the linear trend has seen the validation samples [C91].
* **Optimisation.** Retraining frequency 0 divides by zero, 1 never retrains [C41]; the trust region length passes its maximum and sigma
  can become NaN [C42]; two threads can lose the best candidate [C44]; in binary64 designs can leave the box by a rounding error
  [C71]; an initial sample outside the box can be reported as optimum [C72]; the probability of improvement uses the mean of the
  previous call [C70].
* **Evolutionary optimiser.** Populations of equal or tiny values throw [C51]; in binary64 the roulette wheel can fail [C52]; two
  individuals share an identifier, so the best child can be lost and the search for a second parent can be endless [C53]; the
  maximum of populations without positive values is wrong, a second run starts with stale extremes [C54].
* **Gradient optimiser.** Endless line search at a minimum, box and budget ignored, wrong direction with finite differences, default
  design reported when no step is made [C56]; forward differences are dropped, zero coordinates hang in binary64 [C57].
* **Text.** Repeated tags make lookups fail or are ignored depending on the function [C58]; small numbers are written as 0, nested tags
  go unnoticed [C59]; zero counts as missing, missing doubles count as set, old values survive [C60]; garbage after numbers is
  accepted [C62].
* **API.** Box calls accumulate and a failing one blocks all later ones [C63]; the data file name is ignored [C64]; failed calls still register
  constraints, names may repeat, constraints added after the bounds have none [C65]; `"g>5"` is refused and `"g > 5 7"` is read as 5
  [C80].
* **Configuration files.** Text on the line of a closing constraint tag is lost, unclosed blocks are dropped, one-line blocks make the file
  unreadable [C83]; a second reading always fails [C84]; the study's name is replaced [C85]; a constraint's number of training iterations is
  ignored [C86]; missing bounds become 1e-13 [C87]; gradient- and tangent-enhanced models are accepted and then undefined
  behaviour [C90].
* **External programs.** A stale output file is taken as the value; designs are handed over with six digits and can leave the box [C88].
* **Data files.** A table without rows or with a blank line cannot be read back, values below the printed precision are lost (a sample
  inside the box can be read back outside), text after a number in a cell is ignored, a header of the wrong size empties the file
  before throwing, appending to a file whose last line is incomplete merges rows [C92, C93, C94]; a hyper-parameter file of another
  size is silently ignored and only six digits are kept [C95].
* **Settings of the optimisers.** The mutation probability is not checked, two forms of `setBounds` do not compare the bounds, setting
  the dimension after the bounds makes runs throw, a negative evaluation budget wraps around [C96].
* **Population files.** Short rows are accepted with their last number repeated, a population with unrated individuals cannot be
  read back, reading into a used population keeps old extremes [C98]; a warm start numbers children from 0 again, so that the worst
  individual can be reported as best, and does not check or evaluate the individuals of the file [C99].
* **Files of a study.** The history and the report are emptied before they are rewritten, so an interruption in between loses one of
  them [C100].
* **The program.** Arguments after the first are ignored; every failure that is an exception gives status 1, a gradient- or
  tangent-enhanced model undefined behaviour [C103].
* `Design::saveToAFile` prints the parameters and the constraint values without a separator and does not check whether the file was opened; different
  designs leave the same report, and a report that cannot be written is lost silently. `saveDesignVectorAsCSVFile` of a design without parameters
  empties the file and then throws `out_of_range` (the loop bound `getSize() - 1` wraps around) [C104].
* `generateFormattedString` computes the width of the border with unsigned numbers; a text that does not fit makes it negative and throws
  `length_error`; a tag of 99 or more characters makes the description of a design fail [C104].
* `addDesignToData` of a multi-level function adds nothing and reports nothing: the modes it asks for (`primalBoth`, `primalHiFiAdjointLowFi`)
  are refused by `setDataAddMode`, and the form with a mode argument ignores multi-level functions [C105].
* `setGradientGlobalOptimumFromTrainingData` accepts a table without gradients in one dimension (the test is on two times the dimension,
  not two times the dimension plus one) and takes the function value as the gradient; and it takes the first row within 1e-5, not the
  row of the best design [C105].
* **Test of a surrogate model.** A tester completes one test only: the column names of the second are appended to those of the first, the
  second test throws and leaves the results file empty (`surrogate_model.cpp:257-298`) [C102]. Binding a gradient or tangent enhanced
  model (or NONE) leaves the pointer to the model unset, and it is used; so is setting the validation ratio before binding [C102].
  Universal Kriging stays switched on when the tester is bound to ordinary Kriging [C102]. The tester's own check of the ratio
  (`value < 0 && value > 1.0`) is never true; the data object refuses instead [C102]. The training error of a linear model with a
  validation set compares predictions for the training rows with values of other rows of the file [C102].
* In doubles the upper bound is exceeded by rounding: `vector.cpp` denormalizeVector computes `(ub-lb)*1+lb`, 0.10000000000000009 for
  the bounds -1 and 0.1, and this design is simulated; with the best design at the upper bound the box check of the denormalised
  vector fails and the second search is skipped; the last interval of a Latin hypercube can end above the upper bound
  (`matrix.cpp` fillRandomLHS). The number of discrete values is `floor((ub-lb)/dx)`: 2 for 0.3/0.1, so the value 0.3 is missing; with
  bounds 0 and 1.7 the last value is 1.7000000000000002 [C106].
* `countHowManySamplesAreWithinBounds` takes the number of training samples but the rows of the whole file: with a validation set it counts
  held-out rows and leaves out training rows [C108].
* `ifTestDataHasFunctionValues` and `ifNormalizedTestData` are never reset: after a test file with values one without them gives `out_of_range`
  instead of the refusal, and a second test file that was not normalised is silently predicted at its raw points (1/4 instead of 0 in
  `C110_example`) [C110].
* The gradient step of the optimiser is dead code: the only function that switches it on
  (`decideIfAGradientStepShouldBeTakenForTheFirstIteration`, private) is called nowhere. `C109_never_in_a_run` proves that it is never made from a new
  optimiser; the other theorems of C109 with `g_will s = true` are about the function as written, no run reaches that state. In it `DesignForBayesianOptimization(dimension)` has an empty vector, so without constraints a step whose candidates are all
  on the rising side proposes a design without parameters; with constraints it proposes the lower corner. The models that can be bound throw
  `logic_error` from `interpolateUsingDerivatives`, so the step cannot succeed with them [C109]. With several threads the candidates share one object
  (not modelled).
