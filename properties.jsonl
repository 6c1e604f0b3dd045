{"id": "C01", "title": "Normalisation round trip", "statement": "For every design vector x of size d>=1 and every box lb<ub of the same size, denormalizing the normalized vector returns x, normalizing a denormalized vector returns it, and x lies in [lb,ub] exactly when its normalized image lies in [0,1/d] in every coordinate.", "quantifier": "all dimensions, all real vectors, all boxes with lb<ub componentwise", "why_tests_cant": "infinitely many vectors, boxes and dimensions", "anchors": ["src/LinearAlgebra/vector.cpp:normalizeVector", "src/LinearAlgebra/vector.cpp:denormalizeVector", "src/LinearAlgebra/vector.cpp:normalizeVectorFast", "src/LinearAlgebra/vector.cpp:denormalizeVectorFast"]}
{"id": "C02", "title": "Matrix normalisation agrees with row normalisation", "statement": "normalizeMatrix(lb,ub) succeeds exactly when sizes agree and lb<ub in every column, and then row i of the result is the normalized vector of row i, so a sample normalised alone and inside a data set gives the same point.", "quantifier": "all matrices and boxes", "why_tests_cant": "all shapes and contents", "anchors": ["src/LinearAlgebra/matrix.cpp:normalizeMatrix", "src/LinearAlgebra/vector.cpp:normalizeVector"]}
{"id": "C03", "title": "Bounds object validity over any call history", "statement": "After any sequence of calls on a Bounds object in which the last setBounds call succeeded, and no setDimension/reset follows, getLowerBounds/getUpperBounds have the dimension's size and lb<ub componentwise, and every point generated inside the bounds is accepted by isPointWithinBounds. A setBounds call that throws may still leave the rejected bounds stored.", "quantifier": "all finite sequences of API calls and all arguments", "why_tests_cant": "histories are unbounded and interleave throwing calls", "anchors": ["src/Bounds/bounds.cpp:setBounds", "src/Bounds/bounds.cpp:checkBounds", "src/Bounds/bounds.cpp:reset", "src/Bounds/bounds.cpp:isPointWithinBounds"]}
{"id": "C04", "title": "Random points stay in their box", "statement": "For every outcome of the random source, generated vectors, normalized vectors, matrix fills and Latin-hypercube fills lie inside the requested interval componentwise, and inverted intervals are rejected.", "quantifier": "all random outcomes, sizes and intervals", "why_tests_cant": "the random source has unboundedly many outcomes", "anchors": ["src/LinearAlgebra/vector.cpp:fillRandom", "src/LinearAlgebra/matrix.cpp:fillRandom", "src/LinearAlgebra/matrix.cpp:fillRandomLHS", "src/Bounds/bounds.cpp:generateVectorWithinBounds"]}
{"id": "C05", "title": "Latin hypercube stratification", "statement": "For every random outcome and shuffle, each column of a Latin-hypercube fill with n rows contains exactly one sample in each of the n equal strata of [lb,ub].", "quantifier": "all n, all columns, all random draws and permutations", "why_tests_cant": "number of permutations and draws is unbounded", "anchors": ["src/LinearAlgebra/matrix.cpp:fillRandomLHS"]}
{"id": "C06", "title": "Vector slicing and concatenation laws", "statement": "head(k) and tail(n-k) of a vector concatenate to it; appendVector(w,p) inserts w before position p (position -1 meaning the end) and throws out_of_range exactly outside [-1,n]; copyVector overwrites exactly the entries that fit; push_back appends one entry; resize keeps the common prefix and pads.", "quantifier": "all vectors, positions and sizes", "why_tests_cant": "all sizes/positions", "anchors": ["src/LinearAlgebra/vector.cpp:head", "src/LinearAlgebra/vector.cpp:tail", "src/LinearAlgebra/vector.cpp:appendVector", "src/LinearAlgebra/vector.cpp:copyVector", "src/LinearAlgebra/vector.cpp:push_back", "src/LinearAlgebra/vector.cpp:resize"]}
{"id": "C07", "title": "Minimum and maximum search", "statement": "findMin/findMinIndex/findMax/findMaxIndex on a NaN-free non-empty vector return the least/greatest element and the first index attaining it; on an empty vector they throw. With NaN entries the reported minimum can be wrong.", "quantifier": "all IEEE-754 vectors without NaN, and all real vectors", "why_tests_cant": "all vectors of all lengths", "anchors": ["src/LinearAlgebra/vector.cpp:findMin", "src/LinearAlgebra/vector.cpp:findMinIndex", "src/LinearAlgebra/vector.cpp:findMax", "src/LinearAlgebra/vector.cpp:findMaxIndex"]}
{"id": "C08", "title": "Sorted order and interval lookup", "statement": "sort yields an ordered permutation; is_sorted is true exactly on ordered vectors; findInterval on an ordered vector returns i exactly when value is in [v_i,v_{i+1}), the last index when the value exceeds the last element, and -1 otherwise - including, surprisingly, when the value equals the last element.", "quantifier": "all vectors and values", "why_tests_cant": "all lengths and values", "anchors": ["src/LinearAlgebra/vector.cpp:sort", "src/LinearAlgebra/vector.cpp:is_sorted", "src/LinearAlgebra/vector.cpp:findInterval"]}
{"id": "C09", "title": "Quantile bounds and monotonicity", "statement": "For p in [0,1], quantile(p) lies between min and max, is non-decreasing in p, equals min at 0 and max at 1, and throws outside [0,1] or on an empty vector.", "quantifier": "all vectors and all real p", "why_tests_cant": "continuum of p values", "anchors": ["src/LinearAlgebra/vector.cpp:quantile"]}
{"id": "C10", "title": "Norm axioms", "statement": "norm(L1), norm(L2), norm(LINF) are non-negative, zero exactly on the zero vector, homogeneous and satisfy the triangle inequality; unitVector has norm one and throws exactly on the zero vector.", "quantifier": "all real vectors and scalars", "why_tests_cant": "continuum", "anchors": ["src/LinearAlgebra/vector.cpp:norm", "src/LinearAlgebra/vector.cpp:unitVector"]}
{"id": "C11", "title": "Row editing refines a list of rows", "statement": "Viewing a matrix as the list of its rows, addRow(r,p) inserts r at p, deleteRow(i) removes row i, deleteRows(S) removes exactly the rows whose index is in S (duplicates ignored) and keeps the order of the others, setRow replaces one row, and addRow followed by deleteRow at the same position restores the matrix; out-of-range arguments throw.", "quantifier": "all matrices, rows, index lists and edit sequences", "why_tests_cant": "all shapes and edit histories", "anchors": ["src/LinearAlgebra/matrix.cpp:addRow", "src/LinearAlgebra/matrix.cpp:deleteRow", "src/LinearAlgebra/matrix.cpp:deleteRows", "src/LinearAlgebra/matrix.cpp:setRow", "src/LinearAlgebra/matrix.cpp:getRow"]}
{"id": "C12", "title": "Column editing", "statement": "addColumn(c,p) inserts the column, getCol/setCol round-trip, and no other entry changes; -1 selects the last column.", "quantifier": "all matrices and columns", "why_tests_cant": "all shapes", "anchors": ["src/LinearAlgebra/matrix.cpp:addColumn", "src/LinearAlgebra/matrix.cpp:getCol", "src/LinearAlgebra/matrix.cpp:setCol"]}
{"id": "C13", "title": "Submatrix and resize", "statement": "submat(r0,r1,c0,c1) returns exactly entries (r0+i,c0+j) and throws exactly on empty or out-of-range ranges; resize keeps the common block and zero-fills the rest.", "quantifier": "all matrices and index ranges", "why_tests_cant": "all shapes", "anchors": ["src/LinearAlgebra/matrix.cpp:submat", "src/LinearAlgebra/matrix.cpp:resize"]}
{"id": "C14", "title": "Transpose and concatenation", "statement": "transpose is an involution swapping indices; row-wise (column-wise) concatenation returns the rows (columns) of both in order, is associative on compatible matrices and throws on mismatch.", "quantifier": "all matrices", "why_tests_cant": "all shapes", "anchors": ["src/LinearAlgebra/matrix.cpp:transpose", "src/LinearAlgebra/matrix.cpp:concatenateRowWise", "src/LinearAlgebra/matrix.cpp:concatenateColumnWise"]}
{"id": "C15", "title": "Matrix products", "statement": "matVecProduct and matMatProduct compute the mathematical products, (A*B)x = A(Bx), (A*B)^T = B^T A^T, and throw exactly on incompatible sizes.", "quantifier": "all real matrices and vectors", "why_tests_cant": "all shapes and entries", "anchors": ["src/LinearAlgebra/matrix.cpp:matVecProduct", "src/LinearAlgebra/matrix.cpp:matMatProduct", "src/LinearAlgebra/matrix.cpp:operator*"]}
{"id": "C16", "title": "eye() only writes the diagonal", "statement": "eye() on a freshly constructed square matrix gives the identity; on a matrix with other content it leaves the off-diagonal entries, so it is not the identity in general.", "quantifier": "all square matrices", "why_tests_cant": "all contents", "anchors": ["src/LinearAlgebra/matrix.cpp:eye"]}
{"id": "C17", "title": "Cholesky factorisation soundness and completeness", "statement": "In exact arithmetic, if cholesky reports success with non-zero diagonal then L is lower triangular with L*L^T = A for every symmetric A; and it reports success with positive diagonal for every symmetric positive definite A.", "quantifier": "all symmetric real matrices of every size", "why_tests_cant": "all sizes and entries", "anchors": ["src/LinearAlgebra/matrix.cpp:choleskyNaive", "src/LinearAlgebra/linear_solver.cpp:CholeskySystem::factorize"]}
{"id": "C18", "title": "Cholesky accepts singular matrices", "statement": "A positive semidefinite singular matrix is reported as successfully factorised although the factor then has a zero pivot and the solution of a linear system divides by zero.", "quantifier": "exhibited matrices", "why_tests_cant": "tests only use well conditioned matrices", "anchors": ["src/LinearAlgebra/matrix.cpp:choleskyNaive"]}
{"id": "C19", "title": "Cholesky solve", "statement": "After a successful factorisation of symmetric A with positive diagonal, solveLinearSystem(b) returns x with A x = b, for every b.", "quantifier": "all sizes, matrices and right-hand sides", "why_tests_cant": "all entries", "anchors": ["src/LinearAlgebra/matrix.cpp:solveCholeskyNaive", "src/LinearAlgebra/linear_solver.cpp:CholeskySystem::solveLinearSystem"]}
{"id": "C20", "title": "Determinant and log-determinant agree", "statement": "After a successful factorisation with positive diagonal, calculateLogDeterminant is the logarithm of calculateDeterminant, which is the squared product of the factor's diagonal (the determinant of the matrix).", "quantifier": "all sizes and matrices", "why_tests_cant": "all entries", "anchors": ["src/LinearAlgebra/linear_solver.cpp:calculateDeterminant", "src/LinearAlgebra/linear_solver.cpp:calculateLogDeterminant"]}
{"id": "C21", "title": "LU factorisation with partial pivoting", "statement": "In exact arithmetic, if lu reports success then the pivots are a permutation, P*A = L*U with unit lower L and upper U, all multipliers are at most 1 in absolute value, and every pivot has absolute value at least 1e-9.", "quantifier": "all square real matrices", "why_tests_cant": "all sizes and entries", "anchors": ["src/LinearAlgebra/matrix.cpp:lu_decomposition", "src/LinearAlgebra/linear_solver.cpp:LUSystem::factorize"]}
{"id": "C22", "title": "LU solve and inversion", "statement": "After a successful LU factorisation, solveLinearSystem(b) returns the solution of A x = b for all b, and invert returns B with A*B = I; invert throws when LU fails, and for singular A LU always fails.", "quantifier": "all square matrices and right-hand sides", "why_tests_cant": "all sizes and entries", "anchors": ["src/LinearAlgebra/matrix.cpp:lu_solve", "src/LinearAlgebra/matrix.cpp:invertNaive", "src/LinearAlgebra/linear_solver.cpp:LUSystem::solveLinearSystem"]}
{"id": "C23", "title": "Absolute pivot threshold rejects invertible matrices", "statement": "LU and invert report singular for invertible matrices whose pivots are below the absolute threshold 1e-9 (e.g. a tiny multiple of the identity).", "quantifier": "exhibited family of matrices", "why_tests_cant": "tests only use O(1) matrices", "anchors": ["src/LinearAlgebra/matrix.cpp:lu_decomposition"]}
{"id": "C24", "title": "Factorisation flag protocol", "statement": "Over any history of calls on a linear system object without setDimension after a factorisation, isFactorizationDone implies the stored factor is the factorisation of the stored matrix; a setDimension call after factorisation leaves the flag set although the factor was discarded.", "quantifier": "all call histories", "why_tests_cant": "unbounded histories", "anchors": ["src/LinearAlgebra/linear_solver.cpp:setDimension", "src/LinearAlgebra/linear_solver.cpp:setMatrix", "src/LinearAlgebra/linear_solver.cpp:factorize"]}
{"id": "C25", "title": "Correlation matrix shape", "statement": "For all samples and non-negative hyper-parameters, the Gaussian and exponential correlation matrices are symmetric, have 1 (plus epsilon) on the diagonal, entries in (0,1], and entry (i,j) is the correlation of samples i and j.", "quantifier": "all sample sets, all theta>=0, gamma", "why_tests_cant": "continuum of samples and parameters", "anchors": ["src/LinearAlgebra/matrix.cpp:computeCorrelationMatrixGaussian", "src/LinearAlgebra/matrix.cpp:computeCorrelationMatrixExponential", "src/CorrelationFunctions"]}
{"id": "C26", "title": "Correlation matrices are positive semidefinite", "statement": "For every set of samples and theta>=0 the Gaussian correlation matrix, and for gamma in [0,2] also the exponential one, is positive semidefinite, hence with epsilon>0 its Cholesky factorisation always succeeds with positive diagonal in exact arithmetic.", "quantifier": "all sample sets, dimensions, theta>=0, gamma in [0,2], epsilon>0", "why_tests_cant": "continuum; requires Schoenberg/Bochner type argument", "anchors": ["src/LinearAlgebra/matrix.cpp:computeCorrelationMatrixGaussian", "src/CorrelationFunctions", "src/SurrogateModels/kriging_training.cpp:updateAuxilliaryFields"]}
{"id": "C27", "title": "Correlation derivatives", "statement": "computeGaussianCorrelationDot is the directional derivative of the correlation with respect to the second sample and computeGaussianCorrelationDotDot the second derivative with both directions moving the second sample (so the mixed derivative, first sample against second, is its negative); the exponential version is the directional derivative wherever the two points differ in every component.", "quantifier": "all points, directions, theta", "why_tests_cant": "limits cannot be tested", "anchors": ["src/LinearAlgebra/vector.cpp:computeGaussianCorrelationDot", "src/LinearAlgebra/vector.cpp:computeGaussianCorrelationDotDot"]}
{"id": "C28", "title": "Hyper-parameter round trip", "statement": "setHyperParameters followed by getHyperParameters on a correlation model returns the same vector, the first half being theta and the second half gamma, and invalid parameters (negative theta, gamma outside [0,2]) are rejected by the parameter check.", "quantifier": "all parameter vectors", "why_tests_cant": "all dimensions/values", "anchors": ["src/CorrelationFunctions"]}
{"id": "C29", "title": "Kriging reproduces training data", "statement": "In exact arithmetic a trained Kriging model returns at every training point x_i the value y_i - eps*w_i, where w solves R w = y - beta0; in particular it interpolates exactly when the regularisation eps is 0.", "quantifier": "all sample sets whose regularised correlation matrix factorises", "why_tests_cant": "continuum of data sets", "anchors": ["src/SurrogateModels/kriging_training.cpp:interpolate", "src/SurrogateModels/kriging_training.cpp:updateAuxilliaryFields"]}
{"id": "C30", "title": "Kriging equivariance", "statement": "Predictions are linear in the outputs: scaling the outputs scales every prediction (and the variance quadratically), adding a constant to all outputs adds it to every prediction (without the linear part; with it this fails), and the order of the samples does not matter.", "quantifier": "all data sets, query points, constants", "why_tests_cant": "continuum", "anchors": ["src/SurrogateModels/kriging_training.cpp:interpolate", "src/SurrogateModels/kriging_training.cpp:updateAuxilliaryFields"]}
{"id": "C31", "title": "Kriging generalized least squares mean", "statement": "beta0 is the generalised least squares estimate: 1^T R^-1 (y - beta0 1) = 0, and it minimises the generalised residual; the process variance estimate is non-negative.", "quantifier": "all data sets with positive definite R", "why_tests_cant": "continuum", "anchors": ["src/SurrogateModels/kriging_training.cpp:updateAuxilliaryFields"]}
{"id": "C32", "title": "Ridge regression optimality", "statement": "The linear regression weights solve the regularised normal equations and minimise the regularised sum of squares over all weight vectors.", "quantifier": "all data sets, all competitor weights", "why_tests_cant": "continuum of competitors", "anchors": ["src/SurrogateModels/linear_regression.cpp:train"]}
{"id": "C33", "title": "Training/validation split is a partition", "statement": "On the first read, training and validation rows together are exactly the rows of the data file (as a multiset), with floor-type split count determined by the ratio; a second read of the same object accumulates validation rows.", "quantifier": "all data files, ratios and shuffles", "why_tests_cant": "all shuffles", "anchors": ["src/SurrogateModels/surrogate_model_data.cpp:readData", "src/SurrogateModels/surrogate_model_data.cpp:generateRandomIndicesForValidationData"]}
{"id": "C34", "title": "Data column layout", "statement": "For every file with gradients, inputs are the first d columns, the output is column d and the gradient the next d columns, and normalising then scales gradient column j by (ub_j-lb_j)*d, the chain-rule factor of the input normalisation.", "quantifier": "all data matrices", "why_tests_cant": "all shapes", "anchors": ["src/SurrogateModels/surrogate_model_data.cpp:assignSampleInputMatrix", "src/SurrogateModels/surrogate_model_data.cpp:assignGradientMatrix", "src/SurrogateModels/surrogate_model_data.cpp:normalizeGradientMatrix"]}
{"id": "C35", "title": "New samples never duplicate", "statement": "Adding a sample row (inputs and output) that is within 1e-4 in every component of an existing raw data row leaves the data unchanged; otherwise exactly one row is appended. A sample of the wrong size is rejected.", "quantifier": "all data sets and samples, all sequences of additions", "why_tests_cant": "unbounded sequences", "anchors": ["src/SurrogateModels/kriging_training.cpp:addNewSampleToData"]}
{"id": "C36", "title": "Global optimum is the best feasible design", "statement": "For any optimization history, the reported global optimum is the first row with the smallest objective among feasible rows (objective below the largest double); if no row is feasible it is the first row with the smallest objective overall. Its ID, parameters, constraint values, improvement and feasibility are those of that row.", "quantifier": "all histories", "why_tests_cant": "all histories", "anchors": ["src/Optimizers/globalOptimalDesign.cpp:findBestDesignIndex", "src/Optimizers/globalOptimalDesign.cpp:extractDesignData"]}
{"id": "C37", "title": "Best feasible objective never worsens", "statement": "Appending any further designs to the history never increases the objective of the reported global optimum once a feasible design exists, and never makes a feasible report infeasible.", "quantifier": "all histories and all appended designs", "why_tests_cant": "unbounded histories", "anchors": ["src/Optimizers/globalOptimalDesign.cpp:setGlobalOptimalDesignFromHistoryFile", "src/Optimizers/optimization_history.cpp:updateOptimizationHistory"]}
{"id": "C38", "title": "History rows round-trip", "statement": "updateOptimizationHistory appends exactly one row [x, f, constraints, improvement, feasibility] and leaves previous rows unchanged, and extracting the design from that row returns the stored fields.", "quantifier": "all histories and designs", "why_tests_cant": "all shapes", "anchors": ["src/Optimizers/optimization_history.cpp:updateOptimizationHistory", "src/Optimizers/globalOptimalDesign.cpp:extractDesignData"]}
{"id": "C39", "title": "Improvement accounting", "statement": "Over any sequence of evaluated designs the improvement is zero for infeasible designs, positive exactly for feasible designs better than the initial best, and equals initial best minus the new value; without an initial feasible design the first feasible design becomes the reference.", "quantifier": "all sequences of designs", "why_tests_cant": "unbounded sequences", "anchors": ["src/Optimizers/optimization.cpp:calculateImprovementValue", "src/Optimizers/optimization_history.cpp:calculateInitialImprovementValue"]}
{"id": "C40", "title": "Optimisation loop performs exactly N evaluations", "statement": "The optimisation loop performs exactly max(1,N) expensive evaluations for budget N and then stops, appending one history row per evaluation; a NaN result aborts.", "quantifier": "all budgets N and all evaluator outcomes", "why_tests_cant": "unbounded N and outcomes", "anchors": ["src/Optimizers/efficient_global_optimization.cpp:EfficientGlobalOptimization"]}
{"id": "C41", "title": "Retraining schedule", "statement": "Surrogates are retrained in iteration k exactly when k mod h = 1, so for h>=2 in iterations 1, 1+h, ...; for h=1 they are never retrained, and h=0 is accepted but divides by zero.", "quantifier": "all iteration counts and frequencies", "why_tests_cant": "unbounded", "anchors": ["src/Optimizers/efficient_global_optimization.cpp:EfficientGlobalOptimization"]}
{"id": "C42", "title": "Trust-region and sigma factors stay in range", "statement": "Every third success in a row doubles the trust-region length up to 1/d, every fifteenth failure in a row halves it down to 1/(256 d), and a success is exactly a feasible design better than the best feasible one so far; the length stays within [1/(256 d), max(0.8, 1/d)] (for d >= 2 it starts above its nominal maximum 1/d, and a series of successes then shrinks it); the trust region is a non-empty sub-box of the normalised design space containing the clamped optimum; the variable sigma factor stays in [1,100] in exact arithmetic, but is NaN in binary64 for a single initial sample.", "quantifier": "all histories", "why_tests_cant": "unbounded histories", "anchors": ["src/Optimizers/optimization.cpp:adjustSigmaFactor", "src/Optimizers/optimization.cpp:defineTrustRegion", "src/Optimizers/efficient_global_optimization.cpp:EfficientGlobalOptimization"]}
{"id": "C43", "title": "Discrete parameters are rounded to the nearest admissible value", "statement": "The grid of a discrete parameter is lb+k*dx within the bounds; rounding returns a grid value at minimal distance, is idempotent, and leaves continuous parameters unchanged.", "quantifier": "all grids, values, parameter subsets", "why_tests_cant": "continuum", "anchors": ["src/Optimizers/optimization.cpp:generateDiscreteValues", "src/Optimizers/optimization.cpp:findClosestDiscreteValue", "src/Optimizers/optimization.cpp:roundDiscreteParameters"]}
{"id": "C44", "title": "Most promising design search", "statement": "With one thread the search returns the candidate with the largest acquisition value (first one on ties) among all generated candidates. With several threads every schedule returns one of the candidates better than the start, but because the comparison is outside the critical section some schedule loses the best candidate.", "quantifier": "all candidate streams, all thread interleavings", "why_tests_cant": "interleavings cannot be enumerated by tests", "anchors": ["src/Optimizers/optimization.cpp:searchCompleteDesignSpace", "src/Optimizers/optimization.cpp:searchAroundGlobalOptima"]}
{"id": "C45", "title": "Gradient ascent of the acquisition function", "statement": "The local maximisation never returns a design with smaller acquisition value than it accepted before, terminates, and keeps the design within the normalised box.", "quantifier": "all acquisition functions and starting designs", "why_tests_cant": "all functions", "anchors": ["src/Optimizers/optimization.cpp:maximizeAcqusitionFunctionGradientBased"]}
{"id": "C46", "title": "Normal probabilities", "statement": "normalCdf is between 0 and 1 and non-decreasing, and the probabilities of being below and above a threshold are in [0,1] and sum to one.", "quantifier": "all means, standard deviations > 0 and thresholds", "why_tests_cant": "continuum", "anchors": ["src/Optimizers/optimization.cpp:normalCdf", "src/Optimizers/optimization.cpp:calculateProbabilityLessThanThreshold", "src/Optimizers/optimization.cpp:calculateProbalityGreaterThanThreshold"]}
{"id": "C47", "title": "Expected improvement is non-negative and vanishes without uncertainty", "statement": "The expected improvement acquisition value is never negative, is zero when the predicted standard deviation is negligible, and is increasing in the standard deviation.", "quantifier": "all predictions and standard deviations", "why_tests_cant": "continuum", "anchors": ["src/ObjectiveFunctions/objective_function.cpp:calculateExpectedImprovement"]}
{"id": "C48", "title": "Feasibility probability product", "statement": "Multiplying the acquisition value by the constraint satisfaction probabilities never increases a non-negative acquisition value and never makes it negative.", "quantifier": "all probability lists", "why_tests_cant": "all lists", "anchors": ["src/Design/design_bo.cpp:updateAcqusitionFunctionAccordingToConstraints"]}
{"id": "C49", "title": "Feasibility flags", "statement": "A design is feasible exactly when every constraint value strictly satisfies its inequality; history rows are flagged 1 exactly for rows satisfying all constraints and box bounds when constraints exist.", "quantifier": "all designs and constraint sets", "why_tests_cant": "all combinations", "anchors": ["src/ObjectiveFunctions/constraint_functions.cpp:checkFeasibility", "src/Optimizers/optimization_constraint_functions.cpp:checkConstraintFeasibility", "src/Optimizers/optimization.cpp:setOptimizationHistoryDataFeasibilityValues"]}
{"id": "C50", "title": "Evolutionary individuals stay inside the bounds", "statement": "Initial individuals, children produced by crossover and mutation, and hence every individual of every generation, have genes inside the box, for all random outcomes.", "quantifier": "all generations, random outcomes, boxes", "why_tests_cant": "unbounded random executions", "anchors": ["src/InternalOptimizers/ea_optimizer.cpp:generateRandomIndividual", "src/InternalOptimizers/ea_optimizer.cpp:crossOver", "src/InternalOptimizers/ea_optimizer.cpp:applyMutation"]}
{"id": "C51", "title": "Fitness values", "statement": "Quadratic fitness maps the best objective value to 1, the worst to 0.01, is within [0.01,1] and strictly decreasing in the objective value; populations whose objective values all coincide, or are all below 1e-14 in magnitude, are rejected with an exception.", "quantifier": "all populations with distinct min and max", "why_tests_cant": "continuum", "anchors": ["src/InternalOptimizers/ea_population.cpp:updateFitnessValuesQuadratic", "src/InternalOptimizers/ea_population.cpp:calculateQuadraticFitnessCoefficients"]}
{"id": "C52", "title": "Selection probabilities", "statement": "Reproduction probabilities are positive and sum to 1, death probabilities are non-negative, sum to 1 and are zero for individuals above the 0.9 quantile, and the roulette wheel always selects an existing individual for every random number in [0,1).", "quantifier": "all populations and random numbers", "why_tests_cant": "continuum", "anchors": ["src/InternalOptimizers/ea_population.cpp:updateReproductionProbabilities", "src/InternalOptimizers/ea_population.cpp:updateDeathProbabilities", "src/InternalOptimizers/ea_population.cpp:pickUpARandomIndividualForReproduction"]}
{"id": "C53", "title": "Evolutionary identifiers and elitism", "statement": "The initial population has pairwise distinct identifiers, but the first child receives the identifier of the last initial individual, so identifiers are not unique; with unique identifiers, removing one individual by identifier removes exactly that individual, and the best individual ever generated survives all generations and is the reported solution unless it carries the shared identifier.", "quantifier": "all population sizes", "why_tests_cant": "unbounded", "anchors": ["src/InternalOptimizers/ea_optimizer.cpp:generateRandomIndividual", "src/InternalOptimizers/ea_optimizer.cpp:generateIndividualByReproduction", "src/InternalOptimizers/ea_population.cpp:removeIndividualById"]}
{"id": "C54", "title": "Population extreme tracking", "statement": "After any sequence of additions, removals and recomputations, and at the end of every run, the tracked minimum is the smallest objective value and its identifier names an individual with it; the maximum is never below a member, but it is wrong for populations whose objective values are all negative.", "quantifier": "all populations", "why_tests_cant": "all populations", "anchors": ["src/InternalOptimizers/ea_population.cpp:updatePopulationMinAndMax", "src/InternalOptimizers/ea_population.cpp:updateMinAndMaxIfNecessary"]}
{"id": "C55", "title": "Population size over generations", "statement": "After k generations the population has initial + k*(births - deaths) individuals.", "quantifier": "all k and settings", "why_tests_cant": "unbounded k", "anchors": ["src/InternalOptimizers/ea_optimizer.cpp:generateANewGeneration", "src/InternalOptimizers/ea_population.cpp:addIndividual", "src/InternalOptimizers/ea_population.cpp:removeIndividual"]}
{"id": "C56", "title": "Gradient optimizer descent", "statement": "With a gradient callback every completed line search strictly decreases the objective, so the visited objective values are strictly decreasing and a run ends at the last one, with a gradient below the tolerance or the budget used up. The line search terminates exactly when one of the halved steps decreases the objective, in particular when the callback is the gradient and not zero; it has no iteration bound, ignores the evaluation budget and the box, and does not terminate at a minimum. With finite differences the comparison value is overwritten, so a worse point can be accepted; without any step the reported optimum is not the value of the point.", "quantifier": "all objective functions and starting points", "why_tests_cant": "all functions; non-termination is not testable", "anchors": ["src/InternalOptimizers/gradient_optimizer.cpp:performBacktrackingLineSearch", "src/InternalOptimizers/gradient_optimizer.cpp:optimize"]}
{"id": "C57", "title": "Finite differences", "statement": "Central differences are exact for functions quadratic in each coordinate at points without zero coordinates, and within M h^2/6 in general; the forward-difference option drops the gradient it computes, so that a run stops at its starting point; in binary64 a zero coordinate gives NaN and the run does not end.", "quantifier": "all quadratics and points", "why_tests_cant": "continuum", "anchors": ["src/InternalOptimizers/gradient_optimizer.cpp:approximateGradientUsingCentralFiniteDifferences", "src/InternalOptimizers/gradient_optimizer.cpp:approximateGradientUsingForwardFiniteDifferences", "src/InternalOptimizers/gradient_optimizer.cpp:approximateGradient"]}
{"id": "C58", "title": "XML tag extraction", "statement": "Extracting the content between a start and an end key returns exactly the text between the first start key and the first end key after it, and throws when a key is missing; extracting repeatedly returns all blocks in order. Looking up one element by its name returns the content of its only block, reports an absent element as absent, and throws a runtime error when the block is not closed. A second occurrence of the opening tag anywhere after the first one makes the look-up throw, even when it follows a complete block.", "quantifier": "all strings", "why_tests_cant": "all strings", "anchors": ["src/Driver/string_functions.cpp:extractContentBetweenKeys", "src/Driver/string_functions.cpp:extractContents"]}
{"id": "C59", "title": "XML generate/parse round trip", "statement": "Parsing an element generated for a keyword returns the value written: a string with its spaces removed, every integer of the int range, a real number to within 5e-7, a vector entry by entry to within 5e-7, for all keywords and for values without tag characters. A vector of strings is read item by item without white space, and a missing block gives an empty vector. Real values of magnitude below 5e-7 are lost (read back as 0), a closing tag before the block hides it, and an element nested inside another element of the document is found as if it stood at the top level.", "quantifier": "all strings without '<'", "why_tests_cant": "all strings", "anchors": ["src/Driver/xml_functions.cpp:generateXml", "src/Driver/xml_functions.cpp:getStringValueFromXML"]}
{"id": "C60", "title": "Configuration keyword presence", "statement": "A double-valued keyword explicitly set to 0 is reported as not set and an absent one as set (to 1e-13); an integer keyword is reported set exactly when present with value other than -10000000. Reading a text without the element does not forget the value read before.", "quantifier": "all inputs", "why_tests_cant": "all inputs", "anchors": ["src/Driver/configkey.cpp:getValueFromXMLString", "src/Driver/xml_functions.cpp:getDoubleValueFromXML", "src/Driver/xml_functions.cpp:getIntegerValueFromXML"]}
{"id": "C61", "title": "ON/OFF switches", "statement": "checkIfOn and checkIfOff are never both true, accept exactly ON/YES-type keywords case-insensitively; case-insensitive comparison is reflexive, symmetric and transitive on non-empty strings and false on empty ones.", "quantifier": "all strings", "why_tests_cant": "all strings", "anchors": ["src/Driver/string_functions.cpp:checkIfOn", "src/Driver/string_functions.cpp:checkIfOff", "src/Driver/string_functions.cpp:isEqual"]}
{"id": "C62", "title": "Constraint definition parsing", "statement": "A definition 'name > value' or 'name < value' is parsed to the name without blanks, the inequality and the value; definitions containing both symbols always resolve to '>'. A rejected definition leaves name and inequality as they were. Text after the number is ignored, and blanks inside the number are dropped, without an error.", "quantifier": "all definition strings", "why_tests_cant": "all strings", "anchors": ["src/ObjectiveFunctions/constraint_functions.cpp:setDefinition"]}
{"id": "C63", "title": "API box constraints", "statement": "After the dimension and the objective function are set, the first setBoxConstraints with lower bounds below upper bounds is accepted, and exactly the first d pairs given are in force for the optimiser, the best design, the objective and every constraint. Every call appends the pairs that pass its check instead of replacing: once a call has stored a pair - accepted, or rejected because of a later pair - no later call is accepted.", "quantifier": "all call histories of the API, including failed and repeated calls", "why_tests_cant": "unbounded histories", "anchors": ["src/API/cppAPI.cpp:setBoxConstraints", "src/Optimizers/optimization_setter_getters.cpp:setBoxConstraints"]}
{"id": "C64", "title": "API training data file name", "statement": "setNameOfTrainingDataFile(f) does not store f but the name of the study at that moment, for every f; with a design of experiments whose samples then go to another file than the one named with the objective, the run fails with a runtime error after all samples were computed.", "quantifier": "all file names and call histories", "why_tests_cant": "all strings and histories", "anchors": ["src/API/cppAPI.cpp:setNameOfTrainingDataFile", "src/API/cppAPI.cpp:performDoE"]}
{"id": "C65", "title": "Constraint identifiers", "statement": "Constraints added through the API or the configuration file receive the identifiers 0,1,2,... in order, and constraint values are checked against the definition at the same position.", "quantifier": "all sequences of added constraints", "why_tests_cant": "unbounded", "anchors": ["src/API/cppAPI.cpp:addConstraint", "src/Driver/driver_xml.cpp:readConstraintFunctions", "src/Optimizers/optimization_constraint_functions.cpp:checkConstraintFeasibility"]}
{"id": "C66", "title": "Design sample layout", "statement": "The sample written for each surrogate type has the layout expected by the reader: [x, f], [x, f, gradient], [x, f, derivative, direction]; but the constraint sample with tangent uses the tangent row of the design's own ID instead of the constraint's.", "quantifier": "all designs", "why_tests_cant": "all shapes", "anchors": ["src/Design/design.cpp:constructSampleObjectiveFunction", "src/Design/design.cpp:constructSampleConstraintWithTangent"]}
{"id": "C67", "title": "Hyper-parameter selection by validation error", "statement": "The value of a candidate depends on the candidate and the data only, not on the candidates tried before. The validation-error objective returns the lowest double when the factorisation fails and a non-negative error otherwise, so minimising it always prefers failing hyper-parameters over successful ones; the likelihood objective gives the largest double to a failing candidate. With a positive regularisation and exact arithmetic no candidate inside the search box fails.", "quantifier": "all candidate hyper-parameters and histories of evaluations", "why_tests_cant": "all candidates", "anchors": ["src/SurrogateModels/kriging_training.cpp:calculateValidationErrorForGivenHyperparameters", "src/SurrogateModels/kriging_training.cpp:calculateLikelihoodFunction"]}
{"id": "C68", "title": "Predictive variance", "statement": "The variance reported with a prediction is never negative, never exceeds the kriging variance s2*(1 - r^T R^-1 r + (1^T R^-1 r - 1)^2/(1^T R^-1 1)) and is below it by at most s2*(1e-9+2e-18); at a training point it is at most 2*eps*s2.", "quantifier": "all sample sets, hyper-parameters and query points", "why_tests_cant": "real-valued inputs, all sizes", "anchors": ["src/SurrogateModels/kriging_training.cpp:interpolateWithVariance"]}
{"id": "C69", "title": "In-sample error", "statement": "The in-sample error is the mean squared deviation between the predictions at the training points and their outputs; with a validation split it is instead computed against the outputs of the first rows of the file.", "quantifier": "all sample sets, with and without held-out rows", "why_tests_cant": "all data sets", "anchors": ["src/SurrogateModels/surrogate_model.cpp:calculateInSampleError"]}
{"id": "C70", "title": "Probability of improvement", "statement": "The probability-of-improvement acquisition value is computed with the mean stored in the design before the call, not with the prediction made in the call: a second call on the same design is right, the first one can be arbitrarily wrong.", "quantifier": "all predictions, incumbents and designs", "why_tests_cant": "continuum", "anchors": ["src/ObjectiveFunctions/objective_function.cpp:calculateProbabilityOfImprovement", "src/Design/design_bo.cpp:calculateProbalityThatTheEstimateIsLessThanAValue"]}
{"id": "C71", "title": "Evaluated designs are admissible", "statement": "In exact arithmetic every design evaluated by a run lies in the box, with its discrete parameters on their grids; in binary64 the upper bound can be exceeded by a rounding error of the denormalisation.", "quantifier": "all problems, training data, acquisition functions, random draws and schedules", "why_tests_cant": "unbounded runs over a continuum of inputs", "anchors": ["src/Optimizers/optimization.cpp:findTheMostPromisingDesignToBeSimulated", "src/Optimizers/optimization.cpp:roundDiscreteParameters"]}
{"id": "C72", "title": "Reported optimum of a run", "statement": "At the end of a run the reported optimum is the first best feasible row among all initial samples and evaluated designs (or the row of least objective value if none is feasible); with constraints a feasible optimum lies in the box, without constraints an initial sample outside the box can be reported as the feasible optimum.", "quantifier": "all problems and runs", "why_tests_cant": "unbounded histories", "anchors": ["src/Optimizers/optimization.cpp:findTheGlobalOptimalDesign", "src/Optimizers/optimization.cpp:setOptimizationHistoryDataFeasibilityValues"]}
{"id": "C73", "title": "Vector statistics and box membership", "statement": "The box test of a vector is true exactly for points of the closed box and refuses other sizes; the mean is the sum over the number of components and lies between their extremes; the standard deviation is non-negative, its square is the mean squared distance to the mean, and it is zero exactly for constant vectors; both refuse empty vectors.", "quantifier": "all vectors and boxes", "why_tests_cant": "all sizes and values", "anchors": ["src/LinearAlgebra/vector.cpp:is_between", "src/LinearAlgebra/vector.cpp:mean", "src/LinearAlgebra/vector.cpp:standardDeviation"]}
{"id": "C74", "title": "Test data and full data", "statement": "Test data are accepted exactly with d or d+1 columns, are scaled with the same box as the training data and do not change them; the test results list every test row with the prediction of the fitted model, and the test error is the mean squared deviation. Going back to the full data after a validation split makes every row of the file a normalised training row, in file order, and leaves no validation row.", "quantifier": "all data files, test files, splits and fitted models", "why_tests_cant": "all sizes, shuffles and real inputs", "anchors": ["src/SurrogateModels/surrogate_model_data.cpp:readDataTest", "src/SurrogateModels/surrogate_model_data.cpp:normalizeSampleInputMatrixTest", "src/SurrogateModels/surrogate_model_data.cpp:revertBackToFullData", "src/SurrogateModels/surrogate_model.cpp:tryOnTestData"]}
{"id": "C75", "title": "Training of the Kriging model", "statement": "A completed training leaves hyper-parameters inside the search box (theta in [0,20], gamma in [1,2]) whose objective value is no worse than that of any thread, and a model of all rows of the data file, also when validation rows had been split off; the order in which threads finish does not change the value reached. Every training divides the number of iterations by the number of threads for good, so that repeated trainings end in an exception; after a training with validation samples a second one throws; a warm start with validation samples keeps the model of the unsplit rows only and does not check the search box.", "quantifier": "all data files, splits, numbers of threads and iterations, random draws and thread schedules", "why_tests_cant": "unbounded random searches, schedules and sequences of trainings", "anchors": ["src/SurrogateModels/kriging_training.cpp:train", "src/SurrogateModels/kriging_training.cpp:calculateObjectiveFunctionInternal"]}
{"id": "C76", "title": "Crowding factor", "statement": "The crowding factor of the history is the mean city-block distance over the pairs of the last rows it looks at, never negative, and zero exactly when those rows coincide; with fewer rows than it wants to look at the row limits are swapped and it throws or reads something else.", "quantifier": "all histories", "why_tests_cant": "all sizes and real inputs", "anchors": ["src/Optimizers/optimization_history.cpp:calculateCrowdingFactor"]}
{"id": "C77", "title": "Dimension of a design", "statement": "A design refuses dimension 0 and is then unchanged; any other dimension makes its point and gradient vectors exactly that long, keeps their common part and changes nothing else.", "quantifier": "all designs and dimensions", "why_tests_cant": "all shapes", "anchors": ["src/Design/design.cpp:setDimension"]}
{"id": "C78", "title": "API design of experiments files", "statement": "With setDoEOn(n) the preparation of a run writes the objective's file with exactly the rows (x, f(x)) of n samples inside the bounds (one per stratum and coordinate for LHS), and for every constraint its file with (x, g(x)) for the same samples, leaving other files alone. When the objective throws at sample k the file holds exactly the k samples before; when a constraint throws, the objective's file and the files of the constraints before it are complete and the later ones untouched.", "quantifier": "all call histories in the usual order, all functions, sample counts, draws and points of failure", "why_tests_cant": "all inputs and failure points", "anchors": ["src/API/cppAPI.cpp:performDoE", "src/API/cppAPI.cpp:performDoEForConstraints", "src/API/cppAPI.cpp:generateDoESamplesInput"]}
{"id": "C79", "title": "API optimisation study", "statement": "A study set up through the API in the usual order (dimension, objective and constraints, bounds; other calls anywhere, also failing ones) whose functions are defined on the box runs to the end: exactly the budgeted number of evaluations, all inside the bounds; the recorded objective and constraint values are those of the user's functions in the order of addConstraint; a design is flagged feasible iff all constraints hold strictly; the history is the training data followed by the evaluations; the reported optimum is the best feasible row, or the best row when none is feasible. With a design of experiments the first rows are the samples.", "quantifier": "all call histories, functions, budgets, random draws, surrogate answers and file contents", "why_tests_cant": "unbounded histories and executions", "anchors": ["src/API/cppAPI.cpp:run", "src/Optimizers/efficient_global_optimization.cpp:performEfficientGlobalOptimization"]}
{"id": "C80", "title": "Constraint expressions of the API", "statement": "addConstraint accepts an expression iff it is: optional blanks, a name without blanks, blanks, < or >, a blank, and text that starts (after blanks) with a decimal number of magnitude at most DBL_MAX; name, direction and number are then exactly those. Anything after the number is ignored. Every other text is rejected with invalid_argument and changes nothing.", "quantifier": "all strings", "why_tests_cant": "all strings", "anchors": ["src/API/cppAPI.cpp:parseConstraintExpression", "src/API/cppAPI.cpp:addConstraint"]}
{"id": "C81", "title": "API run refuses incomplete settings", "statement": "run() with a zero budget, or without an accepted setDimension, setBoxConstraints or setObjectiveFunction, or without an existing working directory, or with a design of experiments of zero samples, throws invalid_argument and changes nothing.", "quantifier": "all call histories", "why_tests_cant": "unbounded histories", "anchors": ["src/API/cppAPI.cpp:run", "src/API/cppAPI.cpp:checkOptimizationSettings"]}
{"id": "C82", "title": "Study described by a configuration file", "statement": "Reading a configuration file succeeds as an optimisation exactly when the file describes an acceptable study, and a file describes at most one: dimension, budget, parameters with kind, bounds and increments, objective and constraints with names, programs, files, directions and limits are then exactly those in the file, defaults included.", "quantifier": "all files whose constraint blocks are laid out line by line", "why_tests_cant": "all texts", "anchors": ["src/Driver/driver_xml.cpp:readConfigurationFile", "src/Driver/driver_xml.cpp:readGeneralSettings", "src/Driver/driver_xml.cpp:readProblemParameters"]}
{"id": "C83", "title": "Constraint blocks of a configuration file", "statement": "Every constraint whose opening tag stands on a line of its own and is followed by a line with the closing tag is part of the study, in file order. An opening and closing tag on one line make the file unreadable, text on the line of the closing tag is lost, and a block never closed is dropped without an error.", "quantifier": "all files", "why_tests_cant": "all texts and layouts", "anchors": ["src/Driver/driver_xml.cpp:readConstraintFunctionsFromXML"]}
{"id": "C84", "title": "Only a study that was read can be run", "statement": "When reading fails, or the problem type is not optimisation, running throws runtime_error and changes nothing; a missing file is reported; a second reading by the same driver always fails, but leaves the study runnable.", "quantifier": "all files and driver histories of this form", "why_tests_cant": "all texts", "anchors": ["src/Driver/driver_xml.cpp:readConfigurationFile", "src/Driver/driver_xml.cpp:run"]}
{"id": "C85", "title": "Name of a configured study", "statement": "The name in the configuration file does not become the name of the study: any given name is replaced by OptimizationStudy.", "quantifier": "all configuration files", "why_tests_cant": "all texts", "anchors": ["src/Driver/driver_xml.cpp:setOptimizationFeatures"]}
{"id": "C86", "title": "Training iterations of configured constraints", "statement": "The surrogates of constraints are trained with the objective's number of iterations (10000 by default); the number a constraint asks for is ignored, negative numbers wrap around.", "quantifier": "all configuration files", "why_tests_cant": "all texts", "anchors": ["src/Driver/driver_xml.cpp:setConstraint", "src/Driver/driver_xml.cpp:readConstraint"]}
{"id": "C87", "title": "Parameters of a configuration file", "statement": "A study that was read has as many parameters as dimensions, pairwise different non-empty names, lower bounds below upper bounds and increments within the range; a bound that is missing is not reported but taken as 1e-13.", "quantifier": "all configuration files", "why_tests_cant": "all texts", "anchors": ["src/Driver/driver_xml.cpp:readProblemParameters", "src/Driver/driver_xml.cpp:readParameter"]}
{"id": "C88", "title": "Evaluation by an external program", "statement": "An evaluation writes the design, starts the program with the command its name stands for and returns the number the output file then starts with. It throws runtime_error and gives no value when the program cannot be started, ends with a non-zero code, or leaves no readable output. For a program computing g the value is g of the design rounded to six significant digits, whatever evaluations came before; so the program can be asked for points outside the box. An output left from an earlier evaluation is taken as the value when the program does not write one or no program is given.", "quantifier": "all programs, designs, file contents and output texts", "why_tests_cant": "all file systems, texts and program behaviours", "anchors": ["src/ObjectiveFunctions/objective_function.cpp:evaluateDesign", "src/ObjectiveFunctions/objective_function.cpp:getExecutionCommand", "src/ObjectiveFunctions/objective_function.cpp:readOutput", "src/ObjectiveFunctions/objective_function.cpp:writeDesignVariablesToFile", "src/ObjectiveFunctions/constraint_functions.cpp:evaluateDesign"]}
{"id": "C89", "title": "Optimisation study through a configuration file", "statement": "A study described by a configuration file whose data files and functions are usable runs to the end: exactly the budgeted number of evaluations, each inside the bounds and on the grids; the recorded values are those of the named programs and linked functions, designs are flagged feasible exactly when they meet all constraints, and the reported optimum is the first best one among initial samples and evaluations.", "quantifier": "all configuration files, functions, budgets, random draws and surrogate answers", "why_tests_cant": "unbounded executions", "anchors": ["src/Driver/driver_xml.cpp:runOptimization", "src/Driver/driver_xml.cpp:setConstraint", "src/Optimizers/optimization.cpp:EfficientGlobalOptimization"]}
{"id": "C90", "title": "Models with derivatives in a configuration file", "statement": "A configuration asking for a gradient- or tangent-enhanced model is read without complaint, but running it has no defined behaviour and never evaluates a design.", "quantifier": "all configuration files with such a model", "why_tests_cant": "all texts", "anchors": ["src/Driver/driver_xml.cpp:readObjectiveFunction", "src/ObjectiveFunctions/objective_function.cpp:bindSurrogateModel"]}
{"id": "C91", "title": "What the training of the Kriging model minimises", "statement": "Without validation samples a candidate's value is n/2 ln(s2) + 1/2 ln(det R), with s2 and R of the kriging equations for the candidate's hyper-parameters (the largest double when s2 is 0). With validation samples it is the mean absolute error, at these samples, of the predictor fitted to the other rows; the linear trend, when it is on, was fitted to all rows, the validation samples included.", "quantifier": "all data sets, boxes, regularisations and hyper-parameters", "why_tests_cant": "all real inputs", "anchors": ["src/SurrogateModels/kriging_training.cpp:calculateLikelihoodFunction", "src/SurrogateModels/kriging_training.cpp:calculateValidationErrorForGivenHyperparameters", "src/SurrogateModels/surrogate_model.cpp:calculateValidationError"]}
{"id": "C92", "title": "Data written to a file and read back", "statement": "A matrix with at least one row, saved with p decimals, is read back with the same shape and every entry replaced by the nearest multiple of 10^-p; entries that are such multiples come back exactly, with or without a header, and no other file changes. A header of the wrong length is refused, but the old contents of the file are lost by then; a file that cannot be opened is reported and nothing changes; a matrix without rows cannot be read back; small values are lost, so that a sample inside its bounds can be read back outside of them.", "quantifier": "all matrices, headers, precisions and file systems", "why_tests_cant": "all real entries and shapes", "anchors": ["src/LinearAlgebra/matrix.cpp:saveAsCSV", "src/LinearAlgebra/matrix.cpp:readFromCSV"]}
{"id": "C93", "title": "What a data file means", "statement": "Reading a CSV file gives the matrix whose rows are the lines and whose entries are the numbers the cells start with, and changes no file. It fails exactly when the file is missing or has no rows or rows of different lengths (runtime_error), or when a cell does not start with a number in the range of double (invalid_argument or out_of_range). Text after the number of a cell is ignored, a final comma does not matter, an empty line makes the file unreadable.", "quantifier": "all texts", "why_tests_cant": "all file contents", "anchors": ["src/LinearAlgebra/matrix.cpp:readFromCSV"]}
{"id": "C94", "title": "Samples appended to a data file", "statement": "Appending samples to a file of complete lines adds exactly one row per sample, in order, every number rounded to p decimals, and keeps the rows before; a missing file is created; a sample of another length is refused and nothing is written. Reading the file afterwards gives the old matrix with the rounded sample as last row. A sample appended to a file whose last line is incomplete does not become a row.", "quantifier": "all files, samples and numbers of appends", "why_tests_cant": "unbounded histories", "anchors": ["src/LinearAlgebra/vector.cpp:appendToCSV", "src/SurrogateModels/kriging_training.cpp:addNewSampleToData"]}
{"id": "C95", "title": "Hyper-parameters kept in a file", "statement": "A vector saved to a file is read back with every number rounded to six significant digits, and so are the hyper-parameters of a Kriging model saved and loaded into an initialised model of the same dimension, which changes nothing else. A file with another number of values is ignored without an error; a file that is missing or holds a line without a number is reported and leaves the model as it was.", "quantifier": "all vectors, models, files and texts", "why_tests_cant": "all real values and file contents", "anchors": ["src/LinearAlgebra/vector.cpp:saveToCSV", "src/LinearAlgebra/vector.cpp:readFromCSV", "src/SurrogateModels/kriging_training.cpp:saveHyperParameters", "src/SurrogateModels/kriging_training.cpp:loadHyperParameters"]}
{"id": "C96", "title": "Settings of the built-in optimisers", "statement": "After any sequence of setter calls, also refused ones, the settings of the evolutionary and of the gradient optimiser are those of the last accepted call for each; which calls are refused is determined by the argument and the dimension, and a refused call changes nothing. A run whose settings are incomplete or contradictory is refused before any evaluation, any other run is started. Not checked: a mutation probability never set (the run evaluates the initial population and then fails), bounds given as two numbers or as std::vector with lower above upper, a dimension changed after the bounds, a negative evaluation budget.", "quantifier": "all call histories and arguments", "why_tests_cant": "unbounded histories", "anchors": ["src/InternalOptimizers/ea_optimizer.cpp:setMutationProbability", "src/InternalOptimizers/ea_optimizer.cpp:checkIfSettingsAreOk", "src/InternalOptimizers/general_purpose_optimizer.cpp:setBounds", "src/InternalOptimizers/gradient_optimizer.cpp:setInitialPoint", "src/InternalOptimizers/gradient_optimizer.cpp:checkIfOptimizationSettingsAreOk"]}
{"id": "C97", "title": "How a child of the evolutionary optimiser is made", "statement": "The k-th gene of a child is, when its mutation draw is below the mutation probability, uniformly drawn between the bounds, and otherwise the mean of the parents' genes plus the normal draw times a sixth of their distance (times 1 when they are equal), moved into the bounds. The parents are different individuals of the right dimension.", "quantifier": "all parents, draws and bounds", "why_tests_cant": "all real inputs and draws", "anchors": ["src/InternalOptimizers/ea_optimizer.cpp:crossOver", "src/InternalOptimizers/ea_optimizer.cpp:applyMutation", "src/InternalOptimizers/ea_optimizer.cpp:generateRandomDoubleFromNormalDist"]}
{"id": "C98", "title": "A population file holds exactly the individuals it says", "statement": "Writing a population to a file and reading the file into a population of the same dimension gives the same identifiers in the same order, and genes, objective values, fitness, reproduction and death probabilities rounded to ten significant digits, provided these are in the range of double and the reproduction probability is above 0 and not within 1e-9 of 1; no other file is changed. Reading succeeds exactly when every line after the first is a row of an individual; otherwise the population holds the rows before the first bad line. Refuted: a row with too few genes is accepted with its last number repeated; an individual that has not been rated (reproduction probability 0) is written but not readable; reading into a used population keeps its old best.", "quantifier": "all populations, file contents and previous populations", "why_tests_cant": "numbers of individuals, dimensions and texts are unbounded; tests read back the one file they wrote", "anchors": ["src/InternalOptimizers/ea_population.cpp:writeToCSV", "src/InternalOptimizers/ea_population.cpp:readFromCSV"]}
{"id": "C99", "title": "A warm start continues from the restart file", "statement": "After a completed run the population written to the restart file is readable again whatever the run was (for representable values), so a new optimiser starts from the same individuals to ten digits. A completed warm-started run of g generations has evaluated g times the number of children, holds the file's individuals plus children minus deaths, all children lie in the box and carry their own objective value, stops by the generation and evaluation limits, and reports a member of its population, the best one when identifiers are distinct. A missing or unreadable restart file is refused with a runtime error after the settings check. Refuted: children are numbered from 0 again, so with the file's identifiers the reported solution can be the worst; individuals of the file are not checked against the bounds.", "quantifier": "all settings, files, objective functions and random draws", "why_tests_cant": "all runs and all file contents; any number of generations", "anchors": ["src/InternalOptimizers/ea_optimizer.cpp:writeWarmRestartFile", "src/InternalOptimizers/ea_optimizer.cpp:readWarmRestartFile", "src/InternalOptimizers/ea_optimizer.cpp:optimize"]}
{"id": "C100", "title": "The files of a study agree with what was recorded whenever the run stops", "statement": "Whenever a run ends, by itself or by an exception of a simulation, a constraint or a surrogate model, the history file holds one line for every sample given and every recorded simulation under the right column names, the report describes the best of these rows with its number, objective value, parameters, constraint values and feasibility, at most one simulation result is missing, and no other file was touched. Both files can be read back to six decimals. Between any two writes of the run at most one of the two files is incomplete and the report is at most one row behind. Files that cannot be written and a wrong number of parameter names end the run before any simulation. Refuted: the history survives a crash (it is emptied before it is written again).", "quantifier": "all studies, simulations, failures, points of interruption, file names and earlier disk contents", "why_tests_cant": "crash points and failures at any simulation of any run; all texts of all numbers", "anchors": ["src/Optimizers/optimization_history.cpp:saveOptimizationHistoryFile", "src/Optimizers/optimization_history.cpp:setHeader", "src/Optimizers/globalOptimalDesign.cpp:saveToXMLFile", "src/Optimizers/globalOptimalDesign.cpp:generateXMLString", "src/Optimizers/efficient_global_optimization.cpp:performEfficientGlobalOptimization", "src/Optimizers/optimization.cpp:findTheGlobalOptimalDesign"]}
{"id": "C101", "title": "A whole study does what its parts promise", "statement": "Whenever a study (an optimisation run with its own surrogate models) stops, for whatever reason: the training-data files hold the given samples followed by the samples of the evaluated designs in order, written with twelve digits, a sample that is already present (within 1e-4 in every component) being left out; in every iteration the acquisition function was the expected improvement predicted by the Kriging model of exactly the samples in the objective's file at that time, multiplied by the probability of each constraint computed from the models of exactly the samples in their files; a training that fails changes no prediction. A study stops early only because a due training did not succeed or because a simulation failed at a design inside the box, never because a sample cannot be stored or a prediction fails; a study whose trainings end does terminate.", "quantifier": "every box, every number of constraints, every initial table, all simulations and user functions (also failing ones), all training histories and all random draws", "why_tests_cant": "the files, models and acquisition functions depend on the whole history of the study; a test looks at one run with one stream of random numbers", "anchors": ["src/Optimizers/efficient_global_optimization.cpp: performEfficientGlobalOptimization", "src/Optimizers/optimization.cpp: initializeSurrogates, trainSurrogates, addPenaltyToAcqusitionFunctionForConstraints, findTheMostPromisingDesignEGO", "src/ObjectiveFunctions/objective_function.cpp: initializeSurrogate, trainSurrogate, addDesignToData, calculateExpectedImprovement", "src/ObjectiveFunctions/constraint_functions.cpp: trainSurrogate, addDesignToData", "src/Design/design.cpp: constructSampleObjectiveFunction, constructSampleConstraint"]}
{"id": "C102", "title": "The test of a surrogate model", "statement": "A test of a Kriging model by a new tester with a name, a dimension, a box, two readable data files, a model type and possibly a validation ratio either completes or writes nothing. When it completes, the model that was tested is the (ordinary or universal) Kriging model of all rows of the training file with hyper-parameters in the searched range; the reported training error is the mean squared difference on the training file, the test error that on the test file, and the results file has the right column names and one line per row of the test file, in order, with the inputs, the estimate, the true value and squared error when the test file has values, and the variance when asked for, each with six decimals; no other file is touched. A test of the linear model always completes with the regression of the training rows, except that asking for variances is refused with nothing written. File names are accepted exactly when they end in .csv and hold none of the forbidden characters; a ratio exactly when it is between 0 and 1; a test without box, binding, name, dimension or file names is refused and changes nothing. Refuted: a second test by the same tester (it never completes and empties the results file), binding an enhanced model (undefined behaviour), going back from universal to ordinary Kriging, the training error of a linear model with a validation set.", "quantifier": "all data files, boxes, dimensions, ratios, shuffles, random draws and call sequences", "why_tests_cant": "the predictions and errors are defined by the whole data set; repeated tests depend on the history of the object", "anchors": ["src/SurrogateModels/surrogate_model_tester.cpp: performSurrogateModelTest, bindSurrogateModels, checkFilename, setRatioValidationSamples, setBoxConstraints", "src/SurrogateModels/surrogate_model.cpp: tryOnTestData, saveTestResults, saveTestResultsWithVariance, writeFileHeaderForTestResults, calculateInSampleError"]}
{"id": "C103", "title": "The program from its arguments to its exit status", "statement": "Started without a file name, with a name that does not end in .xml (in any letter case), with a file that is missing or that cannot be read as a study, the program ends with status 1 and no function is evaluated; arguments after the first do not matter. Started with a study that can be run, it ends with status 0 exactly when all evaluations of the budget were made; whenever and however it ends, the recorded rows are the rows of the training table followed by the evaluated designs, all in the bounds and on the grids with the values of the named functions, the optimum is the first best of them, and the files with training data hold the given rows followed by the evaluated designs that are new. It ends early only because a function failed at a design or the training of a model failed. A table that is missing, or a file for the design vector that cannot be opened, gives status 1 without an evaluation and with unchanged tables; a model with derivatives makes the run undefined, before any evaluation.", "quantifier": "all argument lists, configuration texts, functions (also failing ones), training tables and random draws", "why_tests_cant": "the exit status is determined by the whole run of a study of any length", "anchors": ["src/Rodeo.cpp: main, isXMLFile", "src/Driver/driver_xml.cpp: readFile, runOptimization, run", "src/Optimizers/efficient_global_optimization.cpp: performEfficientGlobalOptimization", "src/ObjectiveFunctions/objective_function.cpp: initializeSurrogate, bindSurrogateModel", "src/Optimizers/optimization.cpp: initializeSurrogates"]}
{"id": "C104", "title": "The files and texts of a design", "statement": "Saving the vector of a design to a named file that can be opened, one number per line or as one line of cells, leaves a file from which the readers for vectors and matrices return every parameter to ten significant digits, and changes no other file; without a name (invalid_argument) or with a file that cannot be opened (runtime_error) nothing changes. A heading of a given width is the text in the middle of two equal borders exactly when it fits; a longer text is refused with length_error, so a design with a tag of more than 98 characters cannot be described. The description lists all parameters and constraint values. Violated: a design without parameters empties the file before it is refused; the report of a design is silently not written when the file cannot be opened, and its numbers have no separator, so that different designs leave the same file.", "quantifier": "all designs, file names, file systems, tags and widths", "why_tests_cant": "round trips for all numbers in the range of double and all texts", "anchors": ["src/Design/design.cpp: saveDesignVector, saveDesignVectorAsCSVFile, saveToAFile, generateFormattedString, generateOutputString", "src/Optimizers/aux.cpp: generateFormattedString", "src/ObjectiveFunctions/objective_function.cpp: generateFormattedString", "src/Optimizers/optimization.cpp: initializeCurrentBestDesign"]}
{"id": "C105", "title": "Modes of a function, designs added to its data, and the gradient of the best design", "statement": "A mode is accepted exactly when it is primal, adjoint or tangent; anything else is refused with invalid_argument and changes nothing, so after any calls a mode is unset or one of the three. Evaluating a design sets the mode to primal and gives the same value and files whatever mode was set before. Adding designs to the data of an initialised single-level function in the mode primal never fails: the file gets every sample that is not within 1e-4 of a row already there and the Kriging model is again the model of the file; in the modes with derivatives a Kriging model refuses the sample and nothing changes; without a file name, initialisation or mode the call fails and nothing changes. The gradient of the best design is read as the one of the first row of the table with its parameters (up to 1e-5); if no row matches, the table is missing or too narrow, the call fails and nothing changes. Refuted: a design added to a multi-level function is in its data (both ways of adding return normally and add nothing, in every mode that can be set); the gradient comes from a table that holds gradients (in one dimension the value of the function is taken from a table without them); the gradient comes from the row of the best design (an earlier row within 1e-5 is taken).", "quantifier": "all call sequences, designs, modes, surrogate model states, tables and best designs", "why_tests_cant": "the modes and the data depend on the whole history of calls; the tables are arbitrary", "anchors": ["src/ObjectiveFunctions/objective_function.cpp: setEvaluationMode, setDataAddMode, validateEvaluationMode, addDesignToData, writeDesignVariablesToFile, evaluateDesign, checkEvaluationModeForPrimalExecution", "src/Optimizers/globalOptimalDesign.cpp: setGradientGlobalOptimumFromTrainingData"]}
{"id": "C106", "title": "Where rounding can put a design: exactly inside for random draws, a rounding error outside for designs and samples", "statement": "In IEEE double arithmetic a random number drawn between two bounds is a finite number between them, exactly, and so is every entry of a vector or matrix filled at random. A Latin hypercube sample, a design turned back from the normalised box, a value of a discrete parameter and the design an iteration of the optimiser chooses for the simulation are finite numbers, never below the lower bound and above the upper bound by at most 2^-50 (2^-51 for the change from the normalised box) times the larger magnitude of the two bounds, for every draw, thread schedule and surrogate model that does not prefer a design with NaN entries. The upper bound is not respected exactly: in [-1, 0.1] a run simulates a design above 0.1, a Latin hypercube sample may lie above 0.1, and once the best design is at the upper bound the search around it is left out. A discrete parameter with bounds 0 and 0.3 and step 0.1 never takes the value 0.3; with bounds 0 and 1.7 it takes a value above 1.7.", "quantifier": "all boxes of doubles of magnitude up to 2^1020, all draws in [0,1), dimensions and sample counts up to 2^53, schedules, acquisition functions, step widths", "why_tests_cant": "rounding errors depend on every bit of the bounds and draws; the bound must hold for all doubles", "anchors": ["src/LinearAlgebra/vector.cpp: fillRandom, denormalizeVector", "src/LinearAlgebra/matrix.cpp: fillRandom, fillRandomLHS", "src/Optimizers/optimization.cpp: roundDiscreteParameters, findTheMostPromisingDesignEGO, findTheMostPromisingDesignToBeSimulated, trimVectorSoThatItStaysWithinTheBounds", "src/Design/design_bo.cpp: generateRandomDesignVector, gradientUpdateDesignVector"]}
{"id": "C107", "title": "Whole runs in doubles stay in the box up to a rounding error", "statement": "In IEEE double arithmetic, from a new optimiser to the end of the run and wherever the run stops, every point at which the objective function is evaluated is a vector of finite numbers, none below its lower bound and none above its upper bound by more than 2^-50 times the larger magnitude of the two bounds. After a run that ends well the size of the trust region and its two limits are positive numbers of at most 1, and the designs in the history are finite numbers that are not near overflow.", "quantifier": "all problems with a box of doubles of magnitude up to 2^1020 and up to 2^53 parameters, training designs of magnitude up to 2^1021, answers of simulations and constraints, random draws in [0,1), schedules, acquisition functions that never prefer a design with a NaN, discrete steps and numbers of iterations", "why_tests_cant": "an invariant of the state of the optimiser over runs of any length, under rounding at every operation", "anchors": ["src/Optimizers/efficient_global_optimization.cpp: performEfficientGlobalOptimization, performEfficientGlobalOptimizationOnlyWithFunctionalValues", "src/Optimizers/optimization.cpp: initializeOptimizerSettings, setOptimizationHistoryData, findTheMostPromisingDesignEGO, findTheMostPromisingDesignToBeSimulated, defineTrustRegion", "src/Optimizers/globalOptimalDesign.cpp: setGlobalOptimalDesignFromHistoryFile"]}
{"id": "C108", "title": "Counting samples in a box and predicting tables of points", "statement": "After a training table was read without a validation set, counting the samples within bounds gives the number of samples whose inputs lie in the closed box; a larger box never holds fewer, no box more than there are samples, and bounds of another length are refused with invalid_argument. When rows are held out for validation the count is taken over the first rows of the file, as many as there are training samples, which need not be the training samples. Predicting a table of points gives one value for every row in the order of the rows, each the prediction of that row alone, exactly when every row has a prediction; otherwise the outcome is that of the first row without one. For the linear model it agrees with the other function that predicts tables.", "quantifier": "all tables, shuffles, boxes, models and tables of points", "why_tests_cant": "the count and the order of the results must be right for every table and box, including points on the border", "anchors": ["src/SurrogateModels/surrogate_model.cpp: countHowManySamplesAreWithinBounds, interpolateVector", "src/SurrogateModels/linear_regression.cpp: interpolateAll"]}
{"id": "C109", "title": "The gradient step of the optimiser", "statement": "A run of the optimiser never makes a gradient step: nothing it calls switches them on. The step itself, once switched on, does the following. When the best design has a gradient that is not zero, a gradient step draws its candidates in the normalised box, none further than window * factor / dimension from the best design in any parameter, and proposes the candidate with the largest value of the acquisition function (times the probabilities that the constraints hold) among those for which the gradient, in the user's units, says that the function falls. The step is counted and the factor halved; after five steps gradient steps end, the factor is 1 again and every later step is a usual search. Without a gradient the usual search is made and gradient steps are switched off; an exception while the gradient is looked up changes nothing. When no candidate is on the falling side the proposal is an empty vector without constraints and the lower corner with constraints. With the models that can be bound the step throws logic_error, without effect, as soon as a candidate is on the falling side.", "quantifier": "all boxes, best designs, gradients, acquisition functions, probabilities, draws, windows, states and numbers of steps", "why_tests_cant": "the choice depends on all candidates, the state on the whole series of steps", "anchors": ["src/Optimizers/optimization.cpp: findTheMostPromisingDesignGradientStep, findPromisingDesignUnconstrainedGradientStep, findPromisingDesignConstrainedGradientStep, changeSettingsForAGradientBasedStep, scaleGradientVector, decideIfNextStepWouldBeAGradientStep", "src/Design/design_bo.cpp: DesignForBayesianOptimization, generateRandomDesignVector", "src/Optimizers/globalOptimalDesign.cpp: checkIfGlobalOptimaHasGradientVector"]}
{"id": "C110", "title": "The error of a surrogate model on its test data", "statement": "After a test file with values was named, read and normalised, whatever test data the model had before, the out-of-sample error is the mean over the rows of the squared difference between the prediction at the normalised point and the value in the file; it is also kept in the model with the table of the results, asking again gives the same number, and the training data are left alone. Without test data, without values in them or before they were normalised the call fails with runtime_error and changes nothing. With any model, also one that fails at some points, the call either returns a number or changes nothing. Two states are not reset when another test file is read: a file without values after one with values gives out_of_range, and a second file that is not normalised is not refused but predicted at its raw points.", "quantifier": "all boxes, dimensions, test tables, predictors (also failing ones) and states of the model", "why_tests_cant": "the mean ranges over tables of any length; what is kept from earlier test data depends on the history of calls", "anchors": ["src/SurrogateModels/surrogate_model.cpp: setNameOfInputFileTest, readDataTest, normalizeDataTest, calculateOutSampleError, tryOnTestData", "src/SurrogateModels/surrogate_model_data.cpp: readDataTest, normalizeSampleInputMatrixTest"]}
