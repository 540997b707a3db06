#!/usr/bin/env python3
"""Writes /verif/properties.jsonl from the table below (run from anywhere)."""
import json, os
B="kernelmethods/base.py"; O="kernelmethods/operations.py"; N="kernelmethods/numeric_kernels.py"
C="kernelmethods/categorical.py"; U="kernelmethods/utils.py"; S="kernelmethods/sampling.py"
R="kernelmethods/ranking.py"; A="kernelmethods/algorithms.py"; G="kernelmethods/config.py"
P=[]
def p(id,title,statement,quantifier,why,anchors):
    P.append(dict(id=id,title=title,statement=statement,quantifier=quantifier,why_tests_cant=why,anchors=anchors))

# ---------------------------------------------------------------- KernelMatrix
p("C01","Indexing returns kernel values, whatever was accessed before",
  "After km.attach_to(X[, sample_two=Y]), whenever km[rows, cols] succeeds on a proper subset of rows or columns, the returned dense matrix has exactly the selected row and column indices (ascending, no duplicates) and its (a,b) entry is kernel(X[i_a], Y[j_b]); in the one-sample case entries below the diagonal are the mirrored kernel(X[j], X[i]), so for a symmetric kernel the entry is kernel(X[i], X[j]). This holds regardless of normalized=, of any earlier accesses and of earlier kernel evaluations that raised.",
  "all kernels (deterministic where they return, possibly raising at any moment), all samples, all index expressions, all histories of earlier method calls in which every attach_to succeeded",
  "The value comes from a lazily filled memo table shared by seven access paths; a test sees a few orders of access, not every history or every point at which an evaluation can fail.",
  [B+":KernelMatrix.__getitem__",B+":KernelMatrix._compute_for_index_combinations",B+":KernelMatrix._eval_kernel"])
p("C02","Each pair of samples is evaluated at most once per attachment",
  "Between two attach_to calls the kernel is successfully evaluated at most once for each pair of samples: at most n(n+1)/2 evaluations for one sample of size n and at most n*m for two samples, no matter how often or through which of full, full_sparse, normed_km, centered, frob_norm, diagonal() or indexing the matrix is read.",
  "all kernels, samples, and all finite sequences of accesses",
  "The bound is over arbitrary access histories; the test checks one history.",
  [B+":KernelMatrix._eval_kernel",B+":KernelMatrix._reset"])
p("C03","A normalized KernelMatrix has a history-independent full matrix",
  "With normalized=True and a kernel that does not raise, km.full after attach_to always returns the cosine-normalised matrix of the attached sample(s) (or always raises the normalisation error), whatever other accesses (full_sparse, [:,:], partial indexing, centered, frob_norm, normed_km, diagonal) happened since attach_to, in any order.",
  "all non-raising kernels, all samples, all access histories since the last attach_to",
  "Correctness depends on four flags and three cached arrays; bugs appear only for particular orders of access.",
  [B+":KernelMatrix.full",B+":KernelMatrix.normalize",B+":KernelMatrix._populate_fully"])
p("C04","An unnormalized KernelMatrix has a history-independent full matrix",
  "With normalized=False and a kernel that does not raise, km.full after attach_to always returns the complete kernel matrix as a dense ndarray, whatever accesses happened since attach_to.",
  "all non-raising kernels, all samples, all access histories since the last attach_to",
  "Only certain orders of access (full_sparse or [:,:] before full) expose a wrong result; no test exercises them.",
  [B+":KernelMatrix.full",B+":KernelMatrix.full_sparse",B+":KernelMatrix._populate_fully"])
p("C05","One-sample kernel matrices are symmetric by construction",
  "When attached to one sample, km[i,j] and km[j,i] return the same value, and the matrix returned by full (when it is complete) equals its transpose, even if the user's kernel function is not symmetric.",
  "all kernels including asymmetric ones, all samples, all indices, all histories",
  "Symmetry must hold for arbitrary user callables and any evaluation order; test_symmetry even only prints on failure.",
  [B+":KernelMatrix._eval_kernel",B+":KernelMatrix._populate_fully"])
p("C06","attach_to gives a fresh slate",
  "After a successful attach_to, every later observation (values, evaluation counts, user attributes, errors) is the same as on a newly constructed KernelMatrix with the same kernel and flag attached to the same data: nothing computed on, or set for, an earlier sample can leak.",
  "all histories of earlier calls, including failed ones, and all later call sequences",
  "Leakage would show only for particular combinations of earlier state and later reads.",
  [B+":KernelMatrix.attach_to",B+":KernelMatrix._reset"])
p("C07","A rejected attach_to leaves the KernelMatrix unchanged",
  "If attach_to raises (wrong dimensionality of a sample, or differing numbers of features), the KernelMatrix keeps its previous sample and keeps returning values of that sample.",
  "all states and all rejected arguments",
  "The damage is visible only in accesses after the exception, which tests do not make.",
  [B+":KernelMatrix.attach_to"])
p("C08","An interrupted computation of the matrix does not corrupt later reads",
  "If computing the full matrix raises part-way (the kernel raised or was interrupted at any evaluation), a later read of full or [:,:] either raises again or returns the true kernel matrix; it never returns unevaluated entries.",
  "every crash point in every evaluation order, all later accesses",
  "Crash points are quadratic in the sample size and the fault shows only on the second read.",
  [B+":KernelMatrix._populate_fully"])
p("C09","Index validation",
  "km[index] raises (KMAccessError; ValueError for a slice with step 0; whatever iterating over the index raises) without evaluating the kernel and without changing any state whenever the index is not a pair (or a flat integer), contains a non-integer, a boolean mask, a negative or too large index, or selects nothing; otherwise, for an attached matrix whose kernel does not raise, it succeeds with one row per distinct selected row index and one column per distinct selected column index.",
  "all index expressions (ints, slices with any start/stop/step, iterables, also failing ones) and all shapes",
  "The space of index expressions is infinite; boundary behaviour (0, n-1, n, empty, negative step) must be exact.",
  [B+":KernelMatrix.__getitem__",B+":KernelMatrix._get_indices_in_sample"])
p("C10","numpy-compatible order of indexed rows and columns",
  "km[set_i, set_j] has shape (len(set_i), len(set_j)) and entry (a,b) is the kernel between samples set_i[a] and set_j[b], in the order given (as documented in the class docstring and for numpy).",
  "all integer index lists and slices within range",
  "Needs unsorted or repeated indices, which no test uses with a value check.",
  [B+":KernelMatrix.__getitem__",B+":KernelMatrix._get_indices_in_sample"])
p("C11","Flat indexing follows row-major order",
  "For an attached matrix with r rows and c columns, km[k] is a 1x1 matrix holding the same value as km[k // c, k % c] for 0 <= k < r*c, and any other integer k raises ValueError (TypeError if k does not fit in 64 bits).",
  "all k, all shapes, all histories",
  "Off-by-one errors in the row-major decomposition show for specific shapes only (non-square, two samples).",
  [B+":KernelMatrix.__getitem__"])
p("C12","Lazy evaluation: only the requested elements are computed",
  "attach_to evaluates nothing, and an index access evaluates the kernel only on (the one-sample mirror of) requested pairs that were not evaluated before; an access after a successful full evaluates nothing.",
  "all access histories and index expressions",
  "Requires tracking every kernel call over arbitrary histories.",
  [B+":KernelMatrix.attach_to",B+":KernelMatrix.__getitem__",B+":KernelMatrix._eval_kernel"])
p("C13","diagonal() is the vector of self-similarities",
  "On one sample, diagonal() returns kernel(X[i], X[i]) for i = 0..n-1 in order, unaffected by normalized= and by any history; on two samples it raises KMAccessError.",
  "all kernels, samples, histories",
  "Over all histories and sample sizes.",
  [B+":KernelMatrix.diagonal"])
p("C14","Centering through the KernelMatrix API",
  "On one sample, km.centered is the centering of the raw (unnormalised) kernel matrix, whatever was accessed before; on two samples centered raises KMAccessError and center() raises NotImplementedError.",
  "all kernels, samples, histories since attach_to",
  "After [:,:] or full_sparse the internal format differs and centered fails; tests never combine them.",
  [B+":KernelMatrix.center",B+":KernelMatrix.centered"])
p("C15","User attributes behave as a dictionary per attachment",
  "get_attr(name, default) returns the value most recently set for that name since the last successful attach_to, or the default if there is none; no other method changes attributes.",
  "all interleavings of set_attr, get_attr, attach_to and all other accesses",
  "Refinement over arbitrary histories.",
  [B+":KernelMatrix.set_attr",B+":KernelMatrix.get_attr",B+":KernelMatrix._reset"])
p("C16","Size bookkeeping",
  "After attach_to, shape, num_samples, size and len() agree with the attached data: (n,n), n, n^2 for one sample and (n,m), (n,m), n*m for two, and every complete matrix returned has that shape; no access changes them.",
  "all samples, all histories since attach_to",
  "All sizes and histories, including empty samples.",
  [B+":KernelMatrix.size",B+":KernelMatrix.num_samples",B+":KernelMatrix.attach_to"])
p("C17","NaN or infinite kernel values are reported by a warning, not an exception",
  "If the kernel returns NaN or infinity for some pair, full (normalized=False) still returns the matrix, with a warning.",
  "all kernels including KernelFromCallable, all samples",
  "Requires a user callable that produces a non-finite value; tests leave test_KM_results_in_NaN_Inf empty.",
  [B+":KernelMatrix._populate_fully",B+":KernelFromCallable"])
# ---------------------------------------------------------------- operations
p("C18","center_km centres",
  "For a square matrix K, center_km(K) has entries K_ij - rowmean_i - colmean_j + mean, so every row and column sums to zero; centering again changes nothing; adding a constant to all entries changes nothing; symmetric stays symmetric and positive semidefinite stays positive semidefinite. Non-square input raises ValueError.",
  "all real square matrices of any size",
  "Algebraic identities over all matrices; tests check only the output shape.",
  [O+":center_km"])
p("C19","normalize_km gives a unit diagonal",
  "For a square matrix with diagonal entries all > 1e-8, normalize_km(K) has entries K_ij / sqrt(K_ii K_jj): the diagonal is 1, symmetry and positive semidefiniteness are preserved, entries are in [-1,1] if K is PSD, and normalising again or rescaling K by c>0 (diagonals staying > 1e-8) changes nothing.",
  "all real square matrices with admissible diagonals",
  "Identities and inequalities over all matrices; the test checks one diagonal.",
  [O+":normalize_km"])
p("C20","normalize_km failure modes",
  "normalize_km raises ValueError on non-square input, KMNormError exactly when (method cosine, square) some diagonal entry is within 1e-8 of zero, NotImplementedError for any other method name; method names are case-insensitive; a diagonal entry below -1e-8 makes exactly its row and column NaN.",
  "all matrices and all method strings",
  "Exact boundary of the tolerance and NaN propagation over all inputs.",
  [O+":normalize_km"])
p("C21","Two-sample normalisation is consistent with one-sample normalisation",
  "normalize_km_2sample(K_XY, diag(K_XX), diag(K_YY)) has entries k(x,y)/sqrt(k(x,x)k(y,y)); with Y = X it equals normalize_km(K_XX); mismatching lengths raise ValueError and near-zero diagonals raise KMNormError.",
  "all matrices and diagonals",
  "Universally quantified identity relating two code paths.",
  [O+":normalize_km_2sample",O+":normalize_km",B+":KernelMatrix.normalize"])
p("C22","frobenius_product and frobenius_norm form an inner product and its norm",
  "frobenius_product is the sum of entrywise products: symmetric, bilinear, |<A,B>| <= ||A|| ||B||, ||A|| >= 0 with equality only for the zero matrix; matrices of different shapes raise ValueError.",
  "all real matrices of equal shape",
  "Universal algebra and inequality.",
  [O+":frobenius_product",O+":frobenius_norm"])
p("C23","Centered alignment is a similarity in [-1, 1]",
  "When both centred norms exceed 1e-8, alignment_centered(A,B) is in [-1,1], symmetric in its arguments, 1 when A = B, unchanged when a constant is added to all entries, unchanged by positive scaling (while norms stay > 1e-8), and >= 0 when A and B are PSD.",
  "all pairs of real square matrices of equal size",
  "Inequalities over all matrices (needs Cauchy-Schwarz and the trace inequality for PSD matrices).",
  [O+":alignment_centered"])
p("C24","Centered alignment with vanishing norm",
  "If one of the centred matrices has Frobenius norm <= 1e-8, alignment_centered raises ValueError by default and returns exactly the caller's value_if_zero_division otherwise; different shapes raise ValueError.",
  "all matrices and all fallback values",
  "Exact case split over all inputs.",
  [O+":alignment_centered"])
p("C25","linear_combination",
  "linear_combination(kset, w) is the entrywise weighted sum of the members' full matrices; with norm_weights=True the weights are divided by their sum (so they sum to 1), raising RuntimeError when the sum is within 1e-8 of 0; a wrong number of weights raises ValueError; PSD members with non-negative weights give a PSD result.",
  "all kernel sets and weights",
  "Universal formula over sets of any size.",
  [O+":linear_combination"])
p("C26","is_PSD decides positive semidefiniteness up to its tolerance",
  "Given a correct symmetric eigensolver, is_PSD(A, tol) is True exactly when A is square, symmetric within isclose tolerance, and x'Ax >= -tol*x'x for all x (A being read through its lower triangle); a failing eigensolver gives False; it never raises on a 2D ndarray.",
  "all real matrices, tolerances and vectors x",
  "A statement over all vectors x cannot be tested.",
  [O+":is_positive_semidefinite"])
# ---------------------------------------------------------------- kernels
p("C27","Kernel functions are symmetric",
  "For every built-in kernel and all admissible x and y, kernel(x,y) and kernel(y,x) either both return the same value or both raise the same error.",
  "all vectors and all kernel parameters",
  "Over all inputs; tests sample random positive vectors.",
  [N,C+":MatchCountKernel"])
p("C28","Linear and polynomial kernels are positive semidefinite",
  "For every finite sample, LinearKernel, and PolyKernel with gamma >= 0, b >= 0 and any non-negative integer degree, produce PSD kernel matrices.",
  "all finite samples of any size and dimension, all admissible parameters",
  "PSD over all samples and coefficient vectors; tests use eigenvalues of a few random samples.",
  [N+":LinearKernel",N+":PolyKernel"])
p("C29","Gaussian and Laplacian kernels are positive semidefinite with unit diagonal and range (0,1]",
  "For every finite sample and every sigma (even zero or negative) GaussianKernel, and for every gamma >= 0 LaplacianKernel, produce PSD kernel matrices with k(x,x)=1 and 0 < k(x,y) <= 1.",
  "all finite samples, all sigma, all gamma >= 0",
  "PSD for all samples needs a proof (Schur products, exponential series).",
  [N+":GaussianKernel",N+":LaplacianKernel"])
p("C30","Chi-squared kernel: validity and domain",
  "Chi2Kernel raises Chi2NegativeValuesException exactly when some entry of x or y is negative; otherwise its value is exp(-gamma * sum over non-zero pairs of (x-y)^2/(x+y)), in (0,1] for gamma>=0, 1 on the diagonal, and PSD on every finite non-negative sample.",
  "all vectors, all gamma >= 0, all finite samples",
  "PSD for all samples; 0/0 handling for all zero patterns.",
  [N+":Chi2Kernel"])
p("C31","Hadamard kernel",
  "For alpha > 0 HadamardKernel is finite and non-negative for all inputs (including zeros in either or both vectors), is positive semidefinite on every finite sample (although its documentation says it is not always so), and |alpha| <= 1e-8 is rejected with ValueError.",
  "all vectors, all alpha > 0, all finite samples",
  "Zero-pattern handling and PSD for all samples.",
  [N+":HadamardKernel"])
p("C32","Sigmoid kernel",
  "SigmoidKernel values lie strictly between -1 and 1; its kernel matrices are not in general PSD.",
  "all vectors and parameters; existence of a counterexample",
  "Universal bound and an exact counterexample.",
  [N+":SigmoidKernel"])
p("C33","MatchCountKernel counts matches",
  "MatchCountKernel returns the number (or fraction of dimensions) in which two equal-length categorical vectors agree: between 0 and d (0 and 1), maximal iff the vectors are equal, and PSD on every sample; unequal lengths raise ValueError, non-string dtypes raise TypeError.",
  "all categorical vectors of any length d >= 1, all samples",
  "Over all samples and alphabets.",
  [C+":MatchCountKernel",C+":_check_categorical_arrays"])
p("C34","GaussianKernel bandwidth",
  "For 0 < sigma in the range [eps, 1/sqrt(2 eps)], GaussianKernel(sigma)(x,y) = exp(-||x-y||^2 / (2 sigma^2)); outside it the clamped values are used and 1/(2 sigma^2) is never zero, negative or infinite.",
  "all sigma, x, y",
  "Clamping boundary over all sigma.",
  [N+":GaussianKernel",U+":_ensure_min_eps"])
p("C35","Input validation of vectors and samples",
  "ensure_ndarray_1D accepts exactly arrays with at least one dimension whose dimensions after the first are all 1, and ensure_ndarray_2D exactly those with at least two dimensions whose dimensions after the second are all 1; they never change the elements or their order; kernels raise ValueError on vectors of different lengths. check_operation_kernel_matrix accepts exactly sum, product and average, in any case, and returns the name in lower case.",
  "all shapes of all ranks, all names",
  "All shapes.",
  [U+":ensure_ndarray_1D",U+":ensure_ndarray_2D",U+":check_input_arrays",U+":check_operation_kernel_matrix"])
# ---------------------------------------------------------------- composites
p("C36","Composite kernels compute what their names say",
  "After fit, SumKernel is the weighted sum (weights default 1), ProductKernel the entrywise product, AverageKernel the entrywise mean and WeightedAverageKernel the entrywise weighted sum divided by the total weight, of the members' full matrices; composite_KM before fit raises ValueError.",
  "all kernel sets of size >= 2 attached to a sample, all weights, all earlier access histories of the members",
  "Formula over sets of every size and all member histories.",
  [B+":SumKernel",B+":ProductKernel",B+":AverageKernel",B+":WeightedAverageKernel"])
p("C37","Composite kernels of PSD kernels are PSD",
  "If all member matrices are PSD then the fitted SumKernel with non-negative weights, ProductKernel and AverageKernel are PSD.",
  "all sets of PSD matrices of any size",
  "Schur product theorem: not testable.",
  [B+":SumKernel",B+":ProductKernel",B+":AverageKernel"])
p("C38","Every member counts in a weighted composite",
  "A fitted WeightedAverageKernel accounts for every kernel matrix in its KernelSet at the time of fit (or fit raises).",
  "all kernel sets, including ones extended after construction of the composite",
  "Requires mutation of the set between construction and fit.",
  [B+":WeightedAverageKernel"])
# ---------------------------------------------------------------- KernelSet
p("C39","KernelSet members are size-compatible",
  "Through any sequence of KernelSet operations (construction, append, extend, take, attach_to, attribute access), every member of every KernelSet has num_samples equal to that of the set, provided members are not re-attached behind its back.",
  "all sequences of set operations including failing ones",
  "Invariant over histories.",
  [B+":KernelSet.append",B+":KernelSet.attach_to",B+":KernelSet.extend"])
p("C40","append and extend are all-or-nothing and order-preserving",
  "append adds exactly one member at the end iff its num_samples agrees (the first member of an uninitialised set defines it), otherwise raises KMSetAdditionError and leaves the set unchanged; extend adds all members of the other set in order (also when extending a set with itself), or raises and leaves the set unchanged.",
  "all sets and arguments",
  "Includes self-extension (termination) and all error paths.",
  [B+":KernelSet.append",B+":KernelSet.extend"])
p("C41","take and indexing select by position",
  "kset[i] is the i-th appended kernel matrix for 0 <= i < size and raises IndexError otherwise (no negative indexing); take(indices) is a new set with exactly the selected members in the requested order (repeats allowed), raising IndexError if any index is out of range; iteration yields members in order.",
  "all sets, indices",
  "All index lists.",
  [B+":KernelSet.__getitem__",B+":KernelSet.take",B+":KernelSet._check_indices"])
p("C42","Operations on a taken subset do not affect the original set",
  "Calling attach_to on the result of kset.take(...) leaves the kernel matrices in kset unchanged.",
  "all sets and subsets",
  "Needs aliasing-aware reasoning about shared mutable members.",
  [B+":KernelSet.take"])
p("C43","KernelSet.attach_to attaches every member",
  "If kset.attach_to(X) succeeds, every member is freshly attached to X, the set's num_samples is len(X), and attr_name/attr_value, if given, is set on every member; a sample of the wrong length raises ValueError leaving all members unchanged. A set with a KernelMatrixPrecomputed member raises AttributeError at the first such member: the members before it are attached to the new sample, it and the later ones are unchanged, and num_samples is len(X), so a failed attach_to is not undone.",
  "all sets, samples and member histories",
  "All histories.",
  [B+":KernelSet.attach_to"])
p("C44","KernelSet.set_attr broadcasting",
  "set_attr(name, values) sets values[i] on member i for a sequence of length size, the same value on all members for a scalar, str, or a sequence of length 1 (as documented), and raises ValueError otherwise without setting anything; get_attr returns the per-member values in order.",
  "all sets and value sequences",
  "All lengths, including the length-1 case the docstring promises.",
  [B+":KernelSet.set_attr",B+":KernelSet.get_attr"])
p("C45","KernelSet accepts a single kernel matrix in any advertised type",
  "KernelSet(km_list=K) for K a KernelMatrix, KernelMatrixPrecomputed or 2D symmetric ndarray yields a set of one member.",
  "all kernel matrices / symmetric ndarrays",
  "Over all arrays; the ndarray case is never tested.",
  [B+":KernelSet.__init__",B+":VALID_KERNEL_MATRIX_TYPES"])
# ---------------------------------------------------------------- precomputed / constant
p("C46","KernelMatrixPrecomputed only admits square symmetric matrices",
  "KernelMatrixPrecomputed(M) succeeds only if M is a square 2D real matrix with |M_ij - M_ji| <= 1e-8 + 1e-5*|M_ji| for all i,j, and then full is M, diag its diagonal, size and num_samples its order; otherwise it raises ValueError.",
  "all real arrays of all shapes",
  "All shapes, including degenerate 1 x n.",
  [B+":KernelMatrixPrecomputed",U+":not_symmetric"])
p("C47","ConstantKernelMatrix is constant",
  "full and diag consist of the constant; c[rows, cols] is the constant matrix with one row per distinct selected row index and one column per distinct selected column index; any invalid or empty selection raises KMAccessError.",
  "all sizes, constants and index expressions",
  "All index expressions including empty slices.",
  [B+":ConstantKernelMatrix"])
# ---------------------------------------------------------------- sampling / ranking
p("C48","KernelBucket contents",
  "A new KernelBucket contains the linear kernel first and then, in order, one kernel per supplied parameter value whose construction succeeds; failing values are skipped without affecting the others; 'exhaustive', 'light' and 'linear_only' (case-insensitive) buckets have 25, 15 and 1 members and any other strategy raises ValueError.",
  "all lists of parameter values; all strategy strings",
  "All lists with arbitrary failing values.",
  [S+":KernelBucket",S+":make_kernel_bucket"])
p("C49","add_parametrized_kernels adds kernels to a bucket",
  "bucket.add_parametrized_kernels(F, p, values) adds one kernel for each value for which F(p=value) can be constructed, at any time in the life of the bucket.",
  "all buckets (attached or not), kernel classes and values",
  "The failure needs a bucket already attached to a sample.",
  [S+":KernelBucket.add_parametrized_kernels"])
p("C50","pairwise_similarity is a symmetric table of pairwise metrics",
  "pairwise_similarity(bucket, metric)[i,j] = metric(K_min(i,j), K_max(i,j)) for all i,j; hence symmetric, with no undefined entries; an unknown metric name raises KeyError.",
  "all buckets and metrics",
  "All sizes; index arithmetic of the triangular fill.",
  [S+":pairwise_similarity"])
p("C51","ideal_kernel is the rank-one target kernel",
  "ideal_kernel(y)[i,j] = y_i*y_j; it is symmetric and PSD.",
  "all target vectors",
  "All vectors.",
  [S+":ideal_kernel"])
p("C52","min_max_scale and CV scores",
  "min_max_scale maps a non-empty list of finite numbers into [0,1], preserving order, sending the minimum to 0 and the maximum to 1 (all zeros when the spread is <= 1e-8), hence CV_ranking scores lie in [0,100] and the best kernel scores 100 unless all are equal; the empty list raises ValueError.",
  "all lists of reals",
  "All lists; boundary of the tolerance.",
  [U+":min_max_scale",R+":CV_ranking"])
p("C53","find_optimal_kernel returns a best-scoring member",
  "find_optimal_kernel returns the first member of the bucket whose score is maximal, attached to the given sample; non-buckets raise TypeError and unknown methods raise NotImplementedError before anything is attached.",
  "all buckets, samples, targets and scores",
  "All score vectors and ties.",
  [R+":find_optimal_kernel",R+":rank_kernels"])
p("C54","alignment_ranking scores",
  "alignment_ranking gives each member its centred alignment with yy', lying in [-1,1], and 0 for members (or targets) whose centred norm vanishes.",
  "all buckets and targets",
  "All matrices.",
  [R+":alignment_ranking",O+":alignment_centered"])
p("C55","Every advertised ranking method works in the optimal-kernel estimators",
  "OptimalKernelSVC/SVR(method=m).fit succeeds for every m among the valid ranking methods ('align/corr', 'cv_risk') on valid data.",
  "all data, all valid methods",
  "No test uses method='align/corr' with the estimators.",
  [A+":OptimalKernelSVR._find_optimal_kernel",A+":OptimalKernelSVC._find_optimal_kernel",R+":alignment_ranking"])
# ---------------------------------------------------------------- algorithms
p("C56","KernelMachine hands the estimator the right kernel matrices",
  "fit passes K(train,train) and predict(Z) passes the matrix whose (i,j) entry is k(Z_i, train_j) (cosine-normalised in both cases if normalized=True) with one row per test sample; predicting on the training data passes exactly the training matrix if the kernel is symmetric.",
  "all kernels, training and test samples",
  "Orientation and normalisation errors give plausible numbers; needs all samples.",
  [A+":BaseKernelMachine.fit",A+":BaseKernelMachine.predict"])
p("C57","predict is repeatable",
  "After fit, predict(Z) returns the same result regardless of how many other predict calls were made before, on any data; predict before fit raises NotFittedError.",
  "all sequences of predict calls",
  "predict mutates estimator state; needs all call sequences.",
  [A+":BaseKernelMachine.predict",A+":BaseOptimalKernelMachine.predict"])
p("C58","get_params/set_params round trip",
  "set_params(**p) followed by get_params() returns the new values for recognised names and the old values for all others; unknown names are ignored; set_params(**get_params()) changes nothing.",
  "all parameter dictionaries",
  "All dictionaries.",
  [A+":BaseKernelMachine.get_params",A+":BaseKernelMachine.set_params"])
p("C59","Changing parameters after fit does not affect predictions until refit",
  "After fit, set_params(k_func=..., normalized=...) without a new fit does not change the kernel used by predict.",
  "all fitted machines and parameter changes",
  "Needs interleaving set_params between fit and predict.",
  [A+":BaseKernelMachine.predict",A+":BaseKernelMachine.set_params"])
p("C60","Optimal-kernel estimators leave the user's bucket untouched",
  "OptimalKernelSVC/SVR.fit and predict never modify the KernelBucket passed as k_bucket, and refitting on data of a different size works.",
  "all buckets, data and call sequences",
  "Needs aliasing-aware reasoning over call sequences.",
  [A+":BaseOptimalKernelMachine.fit"])
# ---------------------------------------------------------------- added while modelling
p("C61","frob_norm is the Frobenius norm of the kernel matrix",
  "After attach_to, frob_norm is the square root of the sum of the squared kernel values k(x_i,y_j), whatever was accessed before (full_sparse, [:,:], normed_km, ...).",
  "all kernels, samples, access histories",
  "The value depends on which representation of the matrix an earlier access left behind.",
  [B+":KernelMatrix.frob_norm",O+":frobenius_norm"])
p("C62","One NaN kernel value poisons the whole normalised matrix",
  "If any kernel value of a one-sample KernelMatrix is NaN, then every entry of its normalised matrix is NaN (in any format and after any history), unless normalisation is refused with KMNormError.",
  "all kernels, samples, positions of the NaN, access histories",
  "All positions and sizes; depends on how the scaling is computed.",
  [O+":normalize_km",B+":KernelMatrix.normalize"])
p("C63","Built-in kernels evaluate on every pair of rows of every sample",
  "KernelMatrix calls a kernel with 1-D float rows of equal length, on which every built-in numeric kernel returns a value without raising, whatever the contents (for Chi2Kernel: if no element is negative).",
  "all samples including NaN and infinities, all kernels and parameters",
  "All contents.",
  [B+":KernelMatrix._eval_kernel",U+":check_input_arrays"])
p("C64","End to end: normalised kernel matrices of the PSD kernels",
  "A normalised KernelMatrix over a finite real sample with a built-in kernel that is PSD on it returns, after any history, a PSD matrix with unit diagonal and entries in [-1,1] provided all self-similarities exceed 1e-8; for GaussianKernel the full matrix is exp(-g||x_i-x_j||^2) normalised or not.",
  "all samples, histories, parameters",
  "Combines all layers: kernel, memoisation, population, normalisation.",
  [B+":KernelMatrix.full",O+":normalize_km"])
p("C65","Members of sets are ordinary kernel matrices",
  "In every state reachable by a program using kernel matrices and sets, each KernelMatrix (shared between sets or not) is in a state reachable by calls of its own methods only; after a successful attach_to of a set, each member is in the state of a kernel matrix just attached to the set's sample. Hence all properties of single KernelMatrix objects hold of members of sets.",
  "all programs, sets, sharing patterns",
  "Quantifies over all programs and aliasing patterns.",
  [B+":KernelSet",B+":KernelMatrix"])
p("C66","A failed fit does not corrupt a fitted composite",
  "If fit of an already fitted composite kernel raises, composite_KM afterwards still returns the matrix of the last successful fit, or raises.",
  "all composites, sets, histories, causes of failure",
  "Needs a failure in the middle of a refit.",
  [B+":CompositeKernel",B+":SumKernel",B+":ProductKernel",B+":AverageKernel",B+":WeightedAverageKernel"])
p("C67","Reading full is repeatable",
  "Whenever KernelMatrix.full returns a matrix, reading it again at once returns the same matrix and changes nothing; and reading full of one kernel matrix never changes what full of another returns.",
  "all states of kernel matrices, normalised or not, all kernels and arithmetic",
  "The second read goes through other branches (already populated, already normalised); all states.",
  [B+":KernelMatrix.full",B+":KernelMatrix._populate_fully",B+":KernelMatrix.normalize"])
p("C68","correlation_km is the Pearson correlation of the entries",
  "For finite matrices of equal size, neither of them constant, correlation_km(A, B) is the Pearson correlation of their entries: symmetric in A and B, in [-1,1], 1 if A = B, invariant under scaling by a positive number and shifting. A constant matrix gives NaN; different sizes or fewer than two entries raise ValueError.",
  "all matrices",
  "All sizes and entries.",
  [S+":correlation_km"])
p("C69","A failed fit leaves a kernel machine as it was",
  "If KernelMachine(Regressor).fit raises, a machine fitted before still predicts what it predicted before the failed call, and a machine never fitted still raises NotFittedError on predict.",
  "all machines, data, causes of failure",
  "Needs a failure in the middle of fit, followed by predict.",
  [A+":BaseKernelMachine.fit",A+":BaseKernelMachine.predict"])
p("C72","Documented learner ids work",
  "KernelMachine and KernelMachineRegressor fit successfully with every learner id that get_estimator accepts ('SVM', 'SVC', 'SVR', in any case of letters), provided the data are valid, the kernel matrix can be computed and the support vector machine accepts it.",
  "all learner ids, kernels and data",
  "The tests use the default learner id only.",
  [A+":BaseKernelMachine.fit",R+":get_estimator"])
p("C70","The optimal-kernel machines train on a precomputed kernel",
  "The support vector machine that OptimalKernelSVC/SVR trains on the kernel matrix of the optimal kernel has kernel='precomputed', so that it uses that matrix as the kernel.",
  "all estimators, parameters, data",
  "Tests look at predictions only; the kernel setting is not visible in them.",
  [A+":OptimalKernelSVC.fit",A+":OptimalKernelSVR.fit"])
p("C71","Default optimal-kernel machines accept all valid data",
  "OptimalKernelSVC() and OptimalKernelSVR() with default parameters can be trained on every finite numeric sample that sklearn's input checks accept, provided the cross-validation and the support vector machine succeed.",
  "all samples",
  "Special points (a zero vector) are needed to see the failure.",
  [A+":OptimalKernelSVC.fit",A+":OptimalKernelSVR.fit",B+":KernelMatrix.normalize"])
p("C73","The optimal-kernel machines use the optimal kernel's matrices",
  "After a successful fit of OptimalKernelSVC/SVR on X, predict(Z) hands the trained support vector machine the matrix of the values of the optimal kernel between the rows of Z and the rows of X, in order.",
  "all estimators, buckets, kernels, training and test data",
  "All kernels and all shapes; the matrix is not observable in tests.",
  [A+":OptimalKernelSVC.predict",A+":OptimalKernelSVR.predict"])
p("C74","is_psd reports positive semidefinite kernels",
  "For every built-in kernel that is positive semidefinite, kernel.is_psd() returns True, whatever random sample it draws (given a correct symmetric eigensolver); for a kernel whose matrix on the drawn sample has a negative normalised eigenvalue below -1e-6 it returns False.",
  "all built-in kernels, all parameters, all random samples drawn",
  "The sample is random: a test sees one draw out of a continuum.",
  [B+":BaseKernelFunction.is_psd",O+":is_PSD"])
p("C75","A KernelMatrix without a sample computes nothing",
  "As long as no attach_to has been accepted, every operation that reports about the kernel matrix (full, full_sparse, centered, normed_km, frob_norm, diagonal, indexing, size, shape, ...) raises an exception, the kernel is never called and num_samples is None; if attach_to has not even been tried, full raises ValueError.",
  "all histories of operations without an accepted attach_to, all kernels",
  "Arbitrary interleavings of failed reads, rejected samples and attributes.",
  [B+":KernelMatrix.full",B+":KernelMatrix.attach_to",B+":KernelMatrix.__getitem__"])
p("C76","Kernels in double precision",
  "Computed in IEEE double precision with rounding, on a platform whose sums are sums in some order and whose pow and exp are minimally sane, every numeric kernel is exactly symmetric; the Gaussian, Laplacian and chi2 kernels are exactly 1 on the diagonal for finite vectors (non-negative ones for chi2), and lie between 0 and 1 for gamma > 0.",
  "all finite double precision vectors, all platforms meeting the requirements",
  "Rounding and summation order vary between platforms; all bit patterns.",
  [N+":GaussianKernel.__call__",N+":LaplacianKernel.__call__",N+":Chi2Kernel.__call__"])
p("C77","normalize_km in double precision",
  "Computed in IEEE double precision with rounding, normalize_km(K, 'cosine') gives K_ij / sqrt(K_ii K_jj) with a relative error of at most 2^-50 for every matrix in a wide range of magnitudes; so the diagonal is 1 and a symmetric matrix stays symmetric up to rounding. A matrix with ones on the diagonal is unchanged exactly. In general the diagonal is not exactly 1 and the result not exactly symmetric (witness: ((2,3),(3,5))).",
  "all sizes, all finite matrices in range, all orders of summation",
  "All bit patterns and sizes; tests compare with np.isclose on a few matrices.",
  [O+":normalize_km",B+":KernelMatrix.normalize"])
p("C78","Returned matrices are the caller's own",
  "Whatever the caller writes into matrices or dicts that a KernelMatrix returned (full, full_sparse, normed_km, centered, whole-matrix indexing, attributes()), later results of the object are not affected: indexing, diagonal and the matrices themselves still show the kernel values of the attached sample.",
  "all histories of operations interleaved with writes into returned arrays, all kernels",
  "Needs the caller to modify a result and then look at another one; no test does.",
  [B+":KernelMatrix.full",B+":KernelMatrix.__getitem__",B+":KernelMatrix.normed_km",B+":KernelMatrix.centered",B+":KernelMatrix.diagonal"])
p("C79","attach_to takes a snapshot of the sample",
  "Writing into the sample array after attach_to does not change what the KernelMatrix returns: all results are those of the sample as it was when attached.",
  "all histories of operations interleaved with writes into the sample arrays, all kernels",
  "Needs the caller to modify the sample between two reads; the memo hides or shows the change depending on the history.",
  [B+":KernelMatrix.attach_to",B+":KernelMatrix._eval_kernel",U+":ensure_ndarray_2D"])
p("C80","KernelFromCallable accepts the callables that can be called",
  "KernelFromCallable(f, name, **params) accepts f exactly when f can be called with two positional arguments and params; then kernel(x, y) calls f with x first, y second, each entry of params under its name and the defaults for the rest, and never fails to reach f. Its name is the one given, or that of the function.",
  "all Python signatures (positional-only, ordinary, star, keyword-only, double-star parameters, with or without defaults), all keyword arguments, all inputs",
  "The space of signatures; the tests wrap a few lambdas of two arguments.",
  [B+":KernelFromCallable.__init__",B+":KernelFromCallable.__call__",U+":check_callable",U+":get_callable_name"])
p("C81","Objects can always be printed and show what they are attached to",
  "str(), repr() and format() of a KernelMatrix, KernelSet, composite or kernel never raise; for a KernelMatrix the text has its name, its kernel, the normalisation flag and the name and size of the sample(s) it is attached to.",
  "all histories of operations, including ones that raise, all names and kernels",
  "Needs printing in unusual states (after a rejected attach_to); no test prints there.",
  [B+":KernelMatrix.__str__",B+":KernelSet.__str__",B+":KernelMatrix.attach_to",B+":KernelFromCallable.__str__"])
p("C82","linear_combination of a KernelSet",
  "linear_combination(km_set, weights, norm_weights) returns the matrix, of the shape of the members' full, whose entries are the weighted sums of their entries, with the weights divided by their total if norm_weights; a wrong number of weights raises ValueError, a total of zero RuntimeError, and a member whose full raises passes its exception on. The result is a plain array exactly if the members' full all are, sparse exactly if they all are and the set has no num_samples, and a numpy.matrix otherwise. Sets and the full of every kernel matrix are as before.",
  "all heaps of kernel matrices and sets, all histories, one or two samples, any number of members in any storage format, all real weights",
  "Members of any format (dense, numpy.matrix, sparse), shared between sets, in any state; the tests use dense one-sample sets.",
  [O+":linear_combination",B+":KernelSet.num_samples",B+":KernelSet.__iter__",B+":KernelMatrix.full"])
p("C83","Kernel matrices over categorical data",
  "A KernelMatrix with a MatchCountKernel attached to string samples holds, at (i, j), the number of features in which observations i and j agree (or the fraction, with return_perc): .full after any sequence of operations without full_sparse and km[:, :] (for which see C04), for one or two samples and any strings. The matrix is positive semidefinite, entries lie between 0 and the constant diagonal, and equal the diagonal exactly for observations that agree in every feature. With normalized=True, .full, .full_sparse and .normed_km are the fraction of matching features for both variants of the kernel, for one and two samples, after every sequence of operations; without features normalisation raises KMNormError. KernelSet.attach_to rejects the same sample with ValueError and changes nothing, although every member accepts it.",
  "all numbers of observations and features, all strings, both values of return_perc and normalized, all operation sequences before and after attach_to",
  "Tests use a handful of random string arrays; the claim is about all strings, all sizes including empty ones, and all call sequences.",
  [C+":MatchCountKernel.__call__",C+":_check_categorical_arrays",B+":KernelMatrix.full",B+":KernelMatrix.attach_to",B+":KernelMatrix.normed_km",B+":KernelSet.attach_to"])
p("C84","Kernels on integer data",
  "Samples of integers keep their dtype, so kernels compute in fixed-width integer arithmetic. Whenever the integers in the formula of a kernel are representable, the kernel, and .full of a KernelMatrix after any history (normalised or not), has the value it has on the same numbers as floats; it is symmetric in its two arguments and the matrix is positive semidefinite where the float kernel is. A linear kernel is right exactly when the inner product is representable and otherwise off by a multiple of 2^bits.",
  "all integer dtypes of numpy, all vectors and samples of any size, all seven numeric kernels and parameters, all operation sequences",
  "Tests draw float samples; images (uint8) and counts are typical integer data, and wrong results are silent.",
  [B+":KernelMatrix.attach_to",U+":ensure_ndarray_size",N+":GaussianKernel.__call__",N+":LaplacianKernel.__call__",N+":LinearKernel.__call__",N+":PolyKernel.__call__",N+":HadamardKernel.__call__"])
p("C85","A KernelMatrix behaves like a simple reference object",
  "After attach_to, every sequence of operations on a KernelMatrix has exactly the outcomes of a reference object that knows only the mathematical kernel matrix and remembers five things: the storage format of the matrix and whether its lower half is there, the normalised matrix, the centred matrix, the norm and the attributes. In particular the memo of kernel values, the population loops and the flags are unobservable, and what a history leaves behind is exactly one of four cases.",
  "all kernels that do not raise (symmetric or not, with or without format()), one or two samples, both values of normalized, all earlier histories, all later operation sequences, any arithmetic",
  "Tests look at single operations; equivalence over all interleavings of fifteen operations is a statement about infinitely many histories.",
  [B+":KernelMatrix.full",B+":KernelMatrix.full_sparse",B+":KernelMatrix._populate_fully",B+":KernelMatrix.normalize",B+":KernelMatrix.center",B+":KernelMatrix.frob_norm",B+":KernelMatrix.__getitem__",B+":KernelMatrix.diagonal"])
p("C86","Accuracy of kernels in double precision",
  "Computed in IEEE double precision with any order of summation, LinearKernel on d features differs from the inner product by at most d*eps*sum|x_k y_k| (eps = 2^-52) plus d times the least positive double, and is exact on whole numbers with sum|x_k y_k| < 2^53; LaplacianKernel and GaussianKernel differ from their exact values by at most (d+8)*eps plus the error of the platform's exponential; so does Chi2Kernel on features that are zero or between 2^-400 and 2^500; SigmoidKernel and PolyKernel by the corresponding bounds; HadamardKernel has relative error 4*delta + (d+3)*eps with powers of relative error delta. Computed linear, Laplacian, Gaussian, chi-squared and Hadamard kernel matrices are exactly symmetric, and positive semidefinite up to that error.",
  "all vectors of finite doubles (subnormal numbers included) up to 2^50 features whose sums do not overflow, all parameters, all summation orders, all platforms whose exp, tanh and pow meet a stated accuracy",
  "Rounding errors depend on all digits of all features and on the order of summation; tests see a few samples on one machine.",
  [N+":LinearKernel",N+":LaplacianKernel",N+":GaussianKernel",N+":Chi2Kernel",N+":HadamardKernel",N+":SigmoidKernel",N+":PolyKernel"])
p("C87","Kernels on arrays of mixed data types, with and without input validation",
  "Called on two 1-D arrays of any two numeric dtypes (float64 or integers of any width and signedness), with skip_input_checks True or False, every numeric kernel returns what it returns on the same numbers as float64, as long as the integers in its formula are representable in the common dtype of both arrays; the same holds for the matrix of a KernelMatrix attached to two samples of different dtypes. Kernels are symmetric in arrays of any dtypes and lengths, except Gaussian and Laplacian kernels of two unsigned arrays. Arrays of different lengths are never accepted, and skip_input_checks=True gives the same results as False.",
  "all kernels and parameters, all pairs of dtypes, all arrays of any lengths including NaN and infinities, all histories of the KernelMatrix",
  "Tests use float64 arrays of equal length with the default validation; there are 81 pairs of dtypes and the outcome depends on wrap-around and broadcasting.",
  [N+":HadamardKernel.__call__",N+":Chi2Kernel.__call__",N+":GaussianKernel.__call__",N+":LaplacianKernel.__call__",N+":LinearKernel.__call__",U+":check_input_arrays",B+":KernelMatrix.attach_to"])
p("C88","Operations on kernel matrices in double precision",
  "In IEEE double precision with any order of summation, center_km, frobenius_product, frobenius_norm, alignment_centered and linear_combination return the exact result up to an error proportional to the number of terms and the machine epsilon: 32 n eps M per entry of a centred matrix, n m eps sum |A_ij B_ij| for the Frobenius product, (n m + 1) eps relative for the norm, 16 n^2 eps for the alignment, 8 L eps M for a weighted mean of L matrices. So alignments are between -1 and 1 and self alignments are 1 up to 16 n^2 eps, rows of a centred matrix add up to almost 0, and it is positive semidefinite up to rounding. The centred matrix of a symmetric matrix is accepted as symmetric, and alignment_centered raises ValueError when a centred matrix is zero.",
  "all finite double matrices of all sizes up to the stated bounds on magnitude, all summation orders of all platforms meeting the recorded assumptions",
  "Rounding errors depend on the data and on the order of summation in the BLAS in use; tests compare with a fixed tolerance on a few small matrices.",
  [O+":center_km",O+":frobenius_product",O+":frobenius_norm",O+":alignment_centered",O+":linear_combination",U+":not_symmetric"])
p("C89","Cross-validation scores in double precision",
  "In IEEE double precision, CV_ranking turns finite scores into finite numbers between 0 and 100, one per kernel, and keeps their order. When the scores are spread over more than 1.1e-8 the worst kernel gets exactly 0, the best exactly 100, and the others 100 times their relative position up to 202 eps; when they differ by at most 1e-8 all get 0. find_optimal_kernel returns the kernel with the largest score of cross-validation.",
  "all non-empty lists of finite double scores of magnitude up to 2^1000, of any length",
  "Ties created by rounding and by the tolerance of np.isclose need scores that differ by a few units of roundoff, which no test data set produces on purpose.",
  [U+":min_max_scale",R+":CV_ranking",R+":find_optimal_kernel"])
p("C90","Composite kernels in double precision",
  "In IEEE double precision, SumKernel, WeightedAverageKernel, AverageKernel and ProductKernel of L members return the exact weighted sum, mean or product of the entries up to L eps sum |w K|, (L + 1) eps mean |K| and L eps M^L. They are exactly symmetric when the members are, positive semidefinite up to these errors when the members are, and keep the order of entries. Averages and products of entries between -1 and 1 are between -1 and 1, and are 1 where all members are, with no rounding error. The average of equal members is that member, sums do not depend on the order of the members, and products of positive entries are positive.",
  "all numbers of members, all sizes, all finite double matrices up to the stated bounds on magnitude, all weights",
  "Tests compare with tolerances; exact bounds such as 1 on the diagonal, monotonicity and underflow cannot be seen on a few samples.",
  [B+":SumKernel.fit",B+":ProductKernel.fit",B+":AverageKernel.fit",B+":WeightedAverageKernel.fit"])
p("C91","Normalized kernel matrices in double precision",
  "In IEEE double precision, and after every history of calls, full, full_sparse and normed_km of a KernelMatrix with normalized=True return a dense matrix of finite doubles whose entry (i, j) is k(x_i, y_j) / (sqrt k(x_i, x_i) sqrt k(y_j, y_j)) up to a relative error of 2^-50, for one and for two samples, whether the kernel matrix was stored dense or sparse and in whatever order the platform accumulates. For GaussianKernel, LaplacianKernel and Chi2Kernel it is exactly the kernel value; for LinearKernel with d features it is the cosine of the angle of the samples up to (3 d + 5) eps. Self-similarities up to 1e-8 in magnitude give KMNormError, and those above 1.01e-8 do not.",
  "all kernels, all samples of doubles with self-similarities between 2^-27 and 2^1000, all histories of calls before and after attach_to, all orders of accumulation",
  "The error must hold for all magnitudes, including kernel values below the normal range and diagonals at the edge of np.isclose, and for every path through the cached, sparse and dense representations.",
  [B+":KernelMatrix.full",B+":KernelMatrix.full_sparse",B+":KernelMatrix.normalize",O+":normalize_km",O+":normalize_km_2sample"])
p("C92","The PSD tests in double precision",
  "In IEEE double precision, with an eigensolver that returns the exact eigenvalues of a symmetric matrix within delta of its argument: is_PSD answers True on every n x n matrix within b of a positive semidefinite one if n (b + delta) <= tolerance, and False where the quadratic form is below -(tolerance + n delta) times the squared norm; it answers False for matrices that are not square or not symmetric and when the eigensolver raises, and raises TypeError only for what is not an ndarray. is_psd of GaussianKernel, LaplacianKernel and Chi2Kernel answers True whatever np.random.rand draws, and that of LinearKernel does when no row is too close to zero, and raises KMNormError otherwise.",
  "all matrices of doubles of magnitude up to 2^1000, all tolerances, all eigensolvers with the stated accuracy, all draws, all parameters 0 < gamma <= 2^400",
  "The answer depends on rounding errors of the kernel, the normalization and the eigensolver against a fixed tolerance, for every random draw; a test sees one draw.",
  [O+":is_PSD",B+":BaseKernelFunction.is_psd",B+":KernelMatrix.full"])
p("C93","centered and frob_norm in double precision",
  "In IEEE double precision, and after every history of calls without full_sparse and without an index that selects the whole matrix: KernelMatrix.centered on n samples returns a dense matrix of finite doubles, within 32 n eps M of the centred matrix of the kernel values, M bounding their magnitude; for LinearKernel with d features it is the matrix of inner products of the samples with the mean subtracted, up to (33 n + 4 d) eps M. KernelMatrix.frob_norm on one or two samples returns a number that is not negative, the square root of the sum of the squared kernel values up to a relative error of (n m + 1) eps. Both do so whether normalized is True or not.",
  "all kernels, all samples with finite kernel values that do not overflow when squared and summed, all histories of that kind before and after attach_to, all orders of accumulation",
  "The bound must hold for all sizes, magnitudes and orders of summation, and for every path through the caches.",
  [B+":KernelMatrix.centered",B+":KernelMatrix.frob_norm",O+":center_km",O+":frobenius_norm"])
p("C94","kernel matrices of different samples of the same points agree",
  "If every point along the rows and columns of one KernelMatrix also occurs along the rows and columns of another with the same symmetric kernel, the entries of the first are the corresponding entries of the second, however either object was used before and after attach_to (reading full_sparse apart): subsets, permutations and repeated points, two samples as a block of the stacked sample, one sample attached twice. Exchanging two samples transposes the matrix. With normalized=True the same holds, for finite kernel values and self-similarities above 1e-8, after every history. For finite kernel values, permuting the points permutes centered and leaves frob_norm unchanged, after histories without full_sparse and without an index that selects the whole matrix; it leaves alignment_centered unchanged, and also the scores of alignment_ranking if the targets are permuted alike.",
  "all kernels, samples, selections and histories of two objects; the first two claims in any arithmetic, the others in exact arithmetic",
  "It relates two executions with independent histories and inputs of unbounded size; a test can only compare particular samples.",
  [B+":KernelMatrix.full",B+":KernelMatrix.attach_to",B+":KernelMatrix.centered",B+":KernelMatrix.frob_norm",O+":alignment_centered",R+":alignment_ranking"])
p("C95","how kernel values react to changes of the features",
  "In exact arithmetic: the order of the features is irrelevant to every numeric kernel and to MatchCountKernel, whatever the entries (infinite and NaN included), and reordering the columns of the attached samples does not change a KernelMatrix. A feature that is zero in both arguments can be left out (for HadamardKernel if alpha > 0); for GaussianKernel and LaplacianKernel so can any common feature, and a common shift of the points has no effect. Changing signs of features in both arguments has no effect, Chi2Kernel apart. Multiplying all features by s > 0 multiplies gamma by s (Laplacian, chi2) or s^2 (polynomial, sigmoid), is undone by sigma * s (Gaussian, above the library's minimum), and multiplies HadamardKernel by s^alpha. For features in two groups, Gaussian, Laplacian and chi2 kernels are the products and linear, Hadamard and match count kernels the sums of those of the groups. LinearKernel is linear in each argument.",
  "all vectors of all lengths, all kernel parameters",
  "These are equations between values at different arguments and parameters; a test can compare a few, up to rounding.",
  [N+":HadamardKernel.__call__",N+":PolyKernel.__call__",N+":GaussianKernel.__call__",N+":LaplacianKernel.__call__",N+":Chi2Kernel.__call__",N+":SigmoidKernel.__call__",N+":LinearKernel.__call__",C+":MatchCountKernel.__call__"])
p("C96","what a failed fit of an optimal-kernel machine leaves behind",
  "If fit of OptimalKernelSVC or OptimalKernelSVR raises, one of three things has happened. The bucket or the data were refused: every later predict does what it did before. The search for the kernel failed (method that is no string or unknown, 'align/corr', a bucket attached to another number of samples, a kernel matrix or the cross-validation that raises): a machine that never found a kernel still raises NotFittedError, any other keeps its kernel and support vector machine but from now on compares the test points with the new training points. The training itself raised: the new points, the new kernel and whatever the training left are in place. There is no fourth case: the kernel that was found never fails to give its matrix. None of this changes an object or set that existed before the call (C60).",
  "all programs using an estimator, all data, buckets, kernels that may raise at any call, cross-validations and support vector machines",
  "A failed call can stop at many places, each leaving another mixture of old and new attributes; tests exercise one or two.",
  [A+":BaseOptimalKernelMachine.fit",A+":BaseOptimalKernelMachine.predict",A+":OptimalKernelSVC._find_optimal_kernel",A+":OptimalKernelSVR._find_optimal_kernel"])
p("C97","the warnings of a KernelMatrix",
  "A KernelMatrix whose kernel supports format() never hands out a whole matrix with an infinite or undefined entry in silence: if since samples were accepted no warning was issued and no kernel call failed, every matrix returned by full, full_sparse, normed_km or [:, :] is finite. For kernels that return, it is determined what each operation announces: full, frob_norm, center and centered announce such entries if they are the first to ask for the matrix, and never again; full_sparse (normalized=False) and [:, :] announce them every time; the first normalisation announces those of the raw matrix, then those of its result (for one sample twice), and exceptions inside normalize_km other than its own by 'Unable to normalize'; once a normalisation has returned, no normalisation announces anything; indexing a part, attach_to and reading sizes or diagonal announce nothing.",
  "all kernels, samples, one or two of them, normalized or not, all sequences of operations (for silence: with any further attach_to), any arithmetic",
  "Which call of a sequence warns depends on every earlier call; tests check at most that one call warns.",
  [B+":KernelMatrix._populate_fully",B+":KernelMatrix.normalize",B+":KernelMatrix.full",B+":KernelMatrix.full_sparse",B+":KernelMatrix.__getitem__",O+":normalize_km"])
p("C98","the warnings of the operations and of buckets",
  "Nothing is left out in silence: every value given to add_parametrized_kernels of a bucket in any state leads to a new member or to one warning about that value; the constructor of KernelBucket warns about exactly the values it leaves out and make_kernel_bucket about none, except that it says so when it is given a bucket, which it returns unchanged. alignment_centered warns exactly if it returns value_if_zero_division because a (centred) matrix has (nearly) vanished. is_PSD warns exactly if the matrix is not square, is not symmetric up to numpy.isclose, or if its eigenvalues could not be computed for another reason than a LinAlgError, and then returns False. Recording warnings changes neither results nor state.",
  "all buckets in all states, all values, all matrices of arbitrary entries, all behaviours of scipy's eigh",
  "Which values are skipped depends on the state of the bucket and on every constructor call; tests check that one warning is raised.",
  [S+":KernelBucket.add_parametrized_kernels",S+":KernelBucket.__init__",S+":make_kernel_bucket",O+":alignment_centered",O+":is_positive_semidefinite"])
p("C99","What the text of a kernel tells",
  "The text (str, repr, format) of a built-in kernel identifies it: two built-in kernels have the same text exactly if they are of the same class with the same parameters (skip_input_checks aside; a GaussianKernel shows the bandwidth it works with). It starts with the kernel's name and has no space, so kernel matrices of the same name on samples of the same names have the same text exactly if kernel, normalisation flag and sample sizes agree, and kernel sets of the same name exactly if their number of samples and the texts of their members do. KernelMatrix accepts exactly kernel functions and bool flags and raises TypeError otherwise.",
  "all built-in kernels, all parameters shown injectively without commas, spaces or line breaks, all histories of kernel matrices, all sets",
  "Tests at most print an object; that no two different ones look alike is a statement about all pairs.",
  [N+":PolyKernel.__str__",N+":GaussianKernel.__str__",N+":SigmoidKernel.__str__",C+":MatchCountKernel.__str__",B+":KernelMatrix.__str__",B+":KernelSet.__str__",B+":KernelMatrix.__init__"])
p("C100","Distinct points give definite Gaussian and Laplacian matrices; what the values order and bound",
  "The matrix of a GaussianKernel (any bandwidth but NaN) or a LaplacianKernel (gamma > 0) on n points is positive definite exactly if no two of the points are equal, and so is the .full of a KernelMatrix with one of these kernels after any history (without the sparse accesses of C04); that of a LinearKernel on more points than features never is. The values order pairs of points: Gaussian by distance, Laplacian by the sum of absolute differences, Chi2 (features not negative) by the chi-squared statistic, and each of the three gives 1 only for equal points; sigmoid values grow with the inner product (gamma not negative), and so do polynomial ones where b and the inner products are not negative. A larger bandwidth never lowers a Gaussian value, a larger gamma never raises a Laplacian or Chi2 one. A normalised KernelMatrix of the LinearKernel holds the cosines: 1 exactly for points in the same direction, -1 exactly for opposite directions. For every positive semidefinite kernel |k(x,y)| is at most the geometric mean of k(x,x) and k(y,y), and the square root of k(x,x) - 2k(x,y) + k(y,y) obeys the triangle inequality.",
  "all numbers of points and features, all points, all parameters, all histories of the kernel matrix",
  "Definiteness speaks about all coefficient vectors and all point sets; tests check a lowest eigenvalue of one random matrix.",
  [N+":GaussianKernel.__call__",N+":LaplacianKernel.__call__",N+":Chi2Kernel.__call__",N+":LinearKernel.__call__",N+":SigmoidKernel.__call__",N+":PolyKernel.__call__",B+":KernelMatrix.full",B+":KernelMatrix.normed_km"])
p("C101","A KernelMatrix read by several threads, or interrupted midway, never gives a wrong value",
  "Any number of threads index a KernelMatrix, ask for its diagonal and for .full, in any order and with any interleaving of their single reads and writes of attributes, of the memo and of array entries; a thread may also never go on (interruption). Whatever an index or diagonal request returns is what a single-threaded object returns, it raises only what the kernel raises on its pairs or the access error of a two-sample diagonal, and every entry of any array handed out by .full is the kernel's value of that pair or NaN. If only one thread asks for .full, it gets the complete matrix, always the same array; after that any number of threads may use the object and the kernel is not called again. With several threads asking for .full, the next .full after all have finished evaluates nothing and is complete on and above the diagonal. No thread calls the kernel twice on a pair, every thread is answered its requests in order, and finishes within a number of its own steps fixed by the shape and the requests. A thread left alone does exactly what the sequential object of the other properties does.",
  "all kernels, samples, numbers of threads, lists of requests and schedules",
  "Interleavings are too many to try and not under the control of a test; Ctrl-C in an interactive session strikes anywhere.",
  [B+":KernelMatrix.full",B+":KernelMatrix._populate_fully",B+":KernelMatrix._eval_kernel",B+":KernelMatrix.__getitem__",B+":KernelMatrix.diagonal"])
p("C102","Exactly how many kernel evaluations a matrix, a fit and a prediction cost",
  "After a successful .full every pair of rows making up the matrix (i <= j for one sample of n rows, all pairs for two samples of n and m rows) has been given to the kernel exactly once since attach_to, whatever was accessed before and whether those accesses failed, so that n(n+1)/2 or n m calls have been made; if anything asked for normalised values, two samples cost n + m calls more. Afterwards nothing further makes a call, except the first request for normalised values of two samples. KernelMachine.fit on n points costs n(n+1)/2 calls, predict for n' points n' n calls (n' + n more with normalized=True), both whatever the machine did before; get_params, set_params, predict before fit and predict with the wrong number of features cost none. find_optimal_kernel costs n(n+1)/2 calls for every kernel of the bucket, whichever method ranks them; a successful fit of an optimal-kernel machine costs the same and nothing more for the training, and each prediction n' n calls (n' + n more if the kernel is normalised) of the chosen kernel alone. A call of pairwise_similarity, linear_combination, rank_kernels or the fit of a composite that returns leaves every member of the set with n(n+1)/2 calls (n m for two samples) since it was attached, whatever it was used for before, and the next such call makes none.",
  "all kernels that do not raise on the data, samples, histories of accesses before and after, machines, buckets, sets, composites, weights and targets",
  "Counting calls in a test covers a few orders of access; a pair evaluated twice or eagerly gives the same values.",
  [B+":KernelMatrix._eval_kernel",B+":KernelMatrix.full",B+":KernelMatrix.normalize",A+":KernelMachine.fit",A+":KernelMachine.predict",R+":find_optimal_kernel",A+":BaseOptimalKernelMachine.fit",S+":pairwise_similarity",O+":linear_combination",R+":rank_kernels",B+":SumKernel.fit"])
p("C103","Loops over kernel matrices and sets, membership and truth value",
  "for v in km over an attached KernelMatrix goes through all entries row by row, as 1 x 1 matrices, with the same effects on km as indexing, and then raises ValueError; v in km is True if an entry equals v and raises ValueError otherwise. A loop over a KernelMatrixPrecomputed goes through its rows and then raises KMAccessError; one over a ConstantKernelMatrix raises KMAccessError at once. A loop over a KernelSet goes through exactly the members at its start, in order, whatever the rounds do, appending to the set included, and ends normally. The truth value of a KernelMatrix is whether it has entries, without evaluating the kernel; before attach_to it is an AttributeError.",
  "all kernels, samples, histories before the loop, sets and programs run in the rounds",
  "Whether a loop ends, and how, when the loop body changes what is gone through, depends on the whole history; a test shows one loop.",
  [B+":KernelMatrix.__getitem__",B+":KernelMatrix.__len__",B+":KernelMatrixPrecomputed.__getitem__",B+":ConstantKernelMatrix.__getitem__",B+":KernelSet.__iter__"])
p("C104","NaN, infinities and rejected inputs in double precision",
  "In double precision, whatever the order in which the platform adds: normalize_km and normalize_km_2sample reject exactly wrong shapes, methods other than cosine and self-similarities of absolute value at most 1e-8 (not NaN, infinities or negative numbers); linear_combination exactly a wrong number of weights and, with norm_weights, a sum of absolute value at most 1e-8. One NaN in a matrix makes all entries of the normalised matrix (dense or sparse) and of the centred matrix NaN, the Frobenius products and norm of ndarrays NaN, and the alignment NaN unless the other matrix has vanishing centred norm; it stays in a linear combination whatever its weight; the matrix is reported as neither symmetric nor positive semidefinite. An infinite entry makes all other entries of the normalised matrix NaN, and the Frobenius norm infinite. A KernelMatrix with a NaN kernel value passes this on to full with normalized=True, centered and frob_norm.",
  "all matrices of doubles including NaN and infinities, weights, tolerances, orders of summation, kernels and histories",
  "A test with NaN shows one position in one matrix; that no combination of shape, storage format and order of summation hides it needs all.",
  [O+":normalize_km",O+":normalize_km_2sample",O+":center_km",O+":frobenius_norm",O+":frobenius_product",O+":alignment_centered",O+":linear_combination",O+":is_positive_semidefinite",B+":KernelMatrix.centered"])
p("C105","Importing the package and its names",
  "At any point of any program, import kernelmethods succeeds exactly when numpy and scipy are installed (scikit-learn is not needed) and no import of a module of the package runs into a half-imported one. The fifteen classes and exceptions of __all__ other than the estimators are then attributes of the package, the very objects their modules define, and fetching them loads nothing further; KernelMachine, KernelMachineRegressor, OptimalKernelSVC and OptimalKernelSVR are so exactly when scikit-learn is installed and otherwise raise ModuleNotFoundError; from kernelmethods import * binds __all__ to the same objects. Every other name is an AttributeError, ImportError or ModuleNotFoundError according to the way it is asked for. What a use of the package yields does not depend on what was imported before, except that ranking, algorithms, categorical and tests are attributes of the package only after something has imported them.",
  "all combinations of installed libraries, all programs of import statements and attribute accesses, all names",
  "Which attributes exist depends on everything imported before; tests import all modules in one fixed order in one environment.",
  ["kernelmethods/__init__.py:__getattr__","kernelmethods/__init__.py:__all__","kernelmethods/_version.py"])
p("C106","A KernelMatrix while warnings are turned into exceptions",
  "With warnings.simplefilter('error') for any choice of the package's warnings, changed at will between operations: an operation that issues none of the chosen warnings does exactly what it always does, and any other raises the first chosen warning. After every such history, whatever was raised and caught, an unnormalised KernelMatrix returns from full the matrix that the requests left behind, and raises only at the first request, when an entry is not finite; indexing that selects everything raises each time; parts of the matrix and the diagonal are read as always. If the normalised matrix has entries that are not finite, every operation that normalises raises for as long as the warning of normalize_km is an exception, and when the filter is lifted the object gives the normalisation of its matrix.",
  "all kernels that do not raise, all samples, all value types and numerical operations, all sequences of pairs of a filter and an operation",
  "What the object keeps when a warning raises half-way through an operation depends on where in the code the warning stands; tests run with warnings as warnings.",
  [B+":KernelMatrix._populate_fully",B+":KernelMatrix.normalize",B+":KernelMatrix.full",B+":KernelMatrix.__getitem__",O+":normalize_km"])
p("C107","Kernels with integer parameters on integer samples",
  "With Python integers as gamma, b, offset and degree on integer arrays: if the inner product (or, for LaplacianKernel, the differences and their sum) is representable, the polynomial, Laplacian and sigmoid kernels compute with the representable integer that is congruent to the exact b + gamma<x,y> to the degree (exact argument of exp or tanh) modulo 2^bits; on arrays of the dtype of the parameters polynomial and sigmoid kernels do so for all data. PolyKernel returns what it returns for float parameters and float64 arrays exactly when (b + gamma<x,y>)^degree is representable, for instance if (|b| + |gamma| d B^2)^degree < 2^(bits-1) for entries up to B; then full is, after any history, the exact kernel matrix or its cosine normalisation, and positive semidefinite if gamma, b >= 0. A negative degree raises ValueError. The kernels are symmetric on signed integers, overflow or not.",
  "all integer dtypes of the arrays and of the scalars, all integer parameters, all vectors and samples, all histories of the KernelMatrix",
  "Tests use float arrays or float parameters and small numbers; the wrap-around shows from 2^63 on, the first time at entries of 1449 for PolyKernel(degree=3, gamma=1, b=1).",
  [N+":PolyKernel.__call__",N+":LaplacianKernel.__call__",N+":SigmoidKernel.__call__",B+":KernelMatrix.full"])
p("C108","The normalised and the centred matrix and the norm of a KernelMatrix read by several threads",
  "If one thread alone asks an attached KernelMatrix for full, normed_km, centered and frob_norm, in any order, while the others read elements and the diagonal, then under every schedule its answers are those of the functions of operations.py on the complete kernel matrix (for two samples with the kernel of every row with itself), and the others' answers are the kernel values. Once it has finished and the matrix is populated, any number of threads may ask for anything under any schedule: every answer is right, the kernel is not called on the sample again and the matrix does not change. An uninterrupted request for centered or frob_norm, or with one sample for normed_km, of an object made with normalized=False does what the sequential object does.",
  "all kernels that do not raise, all shapes, one or two samples, normalized True or False, all functions in place of those of operations.py, all numbers of threads, all lists of requests, all schedules",
  "A test runs a few of the interleavings; the wrong ones need a switch of threads between two attribute accesses.",
  [B+":KernelMatrix.normalize",B+":KernelMatrix.center",B+":KernelMatrix.centered",B+":KernelMatrix.frob_norm",B+":KernelMatrix.normed_km",B+":KernelMatrix.full"])
p("C109","Kernels whose results are not doubles: what is kept, what is converted, what is called again",
  "For a kernel whose results have to be converted to double precision when they are stored (ints, booleans, anything else), every operation of a KernelMatrix but diagonal has the outcome it has for the kernel that converts its results itself and raises what the conversion raises. diagonal returns the results unconverted, even those that cannot be converted. Accessing a proper part converts the selected values, or raises what the first that cannot be converted raises. Whatever fails to be converted, a kernel that does not raise is called at most once for a pair until samples are attached again. Ints below 2^53 in size are stored exactly, those from 2^1024 on raise OverflowError.",
  "all types of results, all conversions, all kernels that do not raise on the attached rows, one or two samples, all histories",
  "Tests use kernels that return floats; the conversion fails or rounds for particular results and after particular histories only.",
  [B+":KernelMatrix._eval_kernel",B+":KernelMatrix._populate_fully",B+":KernelMatrix._compute_for_index_combinations",B+":KernelMatrix.diagonal",B+":KernelMatrix.normalize"])
p("C110","Operations, buckets and rankings while warnings are exceptions",
  "While a filter turns some of the package's warnings into exceptions, is_PSD, alignment_centered, add_parametrized_kernels, the constructor of KernelBucket and make_kernel_bucket do what they do otherwise if none of the warnings they issue is among these, and otherwise raise the first that is. A matrix is accepted by is_PSD whatever the filter. add_parametrized_kernels leaves the bucket as if only the values up to the one warned about had been given: the kernels before it are in the bucket, the values after it have not been looked at; no other set and no existing kernel matrix is changed. The named strategies of make_kernel_bucket never raise a warning. pairwise_similarity with metric 'align' and rank_kernels with 'align/corr' raise exactly if one of the matrices (or that of the targets) vanishes, for whatever value was to be returned then.",
  "all filters, all arguments and states; for the last sentence all square kernel matrices and targets of matching length, with arbitrary entries",
  "Tests run with the default filter; python -W error changes which of the except clauses and loops are left early, at positions that depend on the data.",
  [O+":is_positive_semidefinite",O+":alignment_centered",S+":KernelBucket.add_parametrized_kernels",S+":KernelBucket.__init__",S+":make_kernel_bucket",S+":pairwise_similarity",R+":alignment_ranking",R+":find_optimal_kernel"])
p("C111","Which linear, polynomial, Chi2, Hadamard and match-count matrices, composites, normalised and centred matrices are positive definite",
  "The matrix of a Chi2Kernel (gamma > 0) on n points with no negative feature is positive definite exactly if no two of the points are equal, and so is the .full of a KernelMatrix with this kernel, normalised or not, after any history (without the sparse accesses of C04). The matrix of a PolyKernel (gamma > 0, b > 0) on at most degree + 1 points is positive definite exactly if no two of them are equal; on more than (d + 1)^degree points with d features it never is, on numbers (d = 1) not on more than degree + 1. It is exactly if the points have no weights, other than zeros, with which every product of degree affine functions sums to zero over the points; that of a LinearKernel exactly if the points are linearly independent. The matrix of a HadamardKernel (alpha > 0) is positive definite exactly if the points have no weights, other than zeros, with which in every feature the weights of the points sharing a non-zero absolute value sum to zero; so it is if in one of the features no value is zero and no two have the same absolute value; on numbers exactly then; it never is if a point is zero or two points agree in the absolute values of all features. The matrix of a MatchCountKernel on vectors of d >= 1 strings, with or without return_perc, is positive definite exactly if the points have no weights, other than zeros, with which in every feature the weights of the points sharing a value sum to zero; so it is if in one feature all values are different, and never with two equal points. With any kernel of the library whose values on the sample are finite (and above 1e-8 on the diagonal, if the object is normalised), the .full of a KernelMatrix, after such a history, is positive definite exactly if the matrix of kernel values is. The composite_KM of a composite whose members are positive semidefinite is positive definite as soon as one member is: for SumKernel and WeightedAverageKernel if the weights are not negative and that member's is positive, for SumKernel without weights and AverageKernel always, for ProductKernel if the members are ndarrays with positive diagonals; it stays so until fit is called again, whatever else the program does. normalize_km turns a matrix with diagonal entries above 1e-8 into a positive definite one exactly if it was positive definite. The result of center_km on a matrix with at least one row never is.",
  "all numbers of points and features, all points without negative features, all gamma > 0, all sets of members, all weights, all histories of the kernel matrix, the set and the composite, all matrices",
  "Definiteness speaks about all coefficient vectors and all point sets; a test sees the lowest eigenvalue of one rounded matrix, which is close to zero for many definite ones.",
  [N+":Chi2Kernel",N+":PolyKernel",N+":LinearKernel",N+":HadamardKernel",C+":MatchCountKernel",B+":KernelMatrix.full",B+":SumKernel",B+":WeightedAverageKernel",B+":AverageKernel",B+":ProductKernel",O+":normalize_km",O+":center_km"])
p("C112","Integer and float parameters on integer data; the kernels of the buckets",
  "On arrays of fixed-width integers, a PolyKernel, LaplacianKernel or SigmoidKernel whose parameters are Python integers or floats in any combination returns what it returns for float parameters and float64 arrays, provided the integers that occur are representable: what the arrays contribute, in their dtype, and its combination with integer parameters, in the dtype in which numpy does it; so does .full of a KernelMatrix with such a kernel, after any history. With an integer gamma and a float offset or b the kernel computes with the representable integer congruent to gamma times the inner product, and a sigmoid kernel is right exactly if this product is representable. The kernels are symmetric on signed integers, overflow or not. The kernels of the strategies 'exhaustive' and 'light', whose gammas config.py gives as integers (2, 8, 32) and floats (1/2, 1/8, 1/32), are all right on d features of at most B in absolute value if 32 d B^2 and 64 d B are representable (and d B^2 and 2 B in the dtype of the sample).",
  "all signed and unsigned dtypes, all integer and float parameters, all data, all histories of the kernel matrix; the bounds for signed dtypes",
  "Whether a product wraps around depends on the dtype, on the magnitude of the data and on which of the parameters happens to be an integer; tests use floats and small numbers.",
  [N+":PolyKernel",N+":LaplacianKernel",N+":SigmoidKernel",S+":KernelBucket.__init__",G+":default_gamma_values_sigmoid_kernel",B+":KernelMatrix.full"])
p("C113","A ConstantKernelMatrix follows its attributes; its full matrix does not",
  "diag and indexing of a ConstantKernelMatrix consist, at any time, of the value last assigned converted to the dtype last assigned (to an int: without its fraction; to a bool: whether it is not zero), and their sizes come from the num_samples last assigned. full does so until it is first read and then stays the matrix it was, whatever is assigned later; writing into the array it returns changes that entry of full and nothing else. If a program only reads, full, diag and indexing agree at any time. A negative num_samples is accepted by the constructor; then diag, len, slices and the first full raise ValueError, integer indices KMAccessError, and the object does not change.",
  "all sizes, all integer, float and bool values, the dtypes float64, int64, bool and None, all sequences of reads, writes and assignments, all index expressions",
  "Whether the cached matrix is stale depends on the order of reads and assignments; tests build an object and read it once.",
  [B+":ConstantKernelMatrix",B+":ConstantKernelMatrix.full",B+":ConstantKernelMatrix.diag",B+":ConstantKernelMatrix.__getitem__",B+":ConstantKernelMatrix.__len__"])
p("C114","A KernelMatrixPrecomputed shares its array with its caller",
  "Entry (i, j) of full of a KernelMatrixPrecomputed made of an accepted n by m array is, at any time, the value last written to it through full, a row km[r], a block km[a:, c:], or the argument of the constructor if that was an ndarray, and otherwise the entry of the argument; writes into what indexing with lists returned, and into a list given to the constructor, change nothing. An ndarray argument and full are the same array at any time. Indexing and diag read these entries; size is n at any time, also after num_samples was assigned. The constructor does not protect the symmetry it tests: of every accepted n by n array with n at least 2, one write makes a matrix it would reject.",
  "all n by m arrays that the constructor accepts (all n by n arrays symmetric within the tolerance, and some with one row or column), ndarray and list arguments, all sequences of writes and assignments",
  "Whether two names are the same array shows only after a write through one and a read through the other; tests read the object they built.",
  [B+":KernelMatrixPrecomputed.__init__",B+":KernelMatrixPrecomputed.full",B+":KernelMatrixPrecomputed.size",B+":KernelMatrixPrecomputed.diag",B+":KernelMatrixPrecomputed.__getitem__"])
p("C115","Composites do not depend on the order of the members, and agree where their names say so",
  "In exact arithmetic, SumKernel (with or without weights), WeightedAverageKernel and AverageKernel give the same composite_KM whatever the order of the members in their KernelSet (each member with its weight), and so does ProductKernel if the matrices are plain ndarrays; in particular over km_set.take(ix), ix the positions of all members in any order. WeightedAverageKernel gives the same as SumKernel fitted with the same weights. AverageKernel gives the same as either with every weight one over the number of members.",
  "any two programs that made the composites and did anything since, all numbers of samples and members, all entries including NaN and infinities, all storage formats (ProductKernel: plain ndarrays)",
  "Compares two programs over sets of every size and order; a test fixes one set.",
  [B+":SumKernel",B+":ProductKernel",B+":AverageKernel",B+":WeightedAverageKernel"])
p("C116","What the scores of rankings do not depend on",
  "In exact arithmetic, rank_kernels with method 'align/corr' (matrices not declared centred already) gives every member the same score for the targets y and for a + s y, if the centred norms of both target matrices are above 1e-8 or neither is; that of a + s y is s^2 times that of y, so s = 1 and s = -1 need no condition. Two classes may be coded by any two numbers at least 1 apart, in either order, without changing a score. find_optimal_kernel then chooses the same kernel. The order of the members in the bucket does not change the score of a member, with method 'cv_risk' neither; the scores of 'cv_risk' do not depend on the unit and origin of the cross-validation scores either, if their spread is above 1e-8 in both.",
  "all sets and buckets, all finite matrices, all targets, all a and s, whatever is asked for in case of a vanishing norm",
  "Compares the scores for two sets of targets; a test fixes one.",
  [R+":alignment_ranking",R+":rank_kernels",R+":find_optimal_kernel",O+":alignment_centered"])
p("C117","The table of similarities of a selection of kernels is the sub-table",
  "In exact arithmetic, if the members of a second KernelSet are members of a first one, in any order and number, then pairwise_similarity of the second is the table with as many rows and columns as it has members whose entry (i, j) is the entry of the first table at the positions of the two members; in particular if the second is km_set.take(ix). So the similarity of two kernels does not depend on what else is in the set or on which comes first, also where it is NaN (a constant matrix, metric 'corr').",
  "all sets, all selections (with repetitions), all n by n matrices of numbers: any storage format but lil for 'align', plain ndarrays with n at least 2 for 'corr'",
  "Relates the tables of two sets; a test computes one.",
  [S+":pairwise_similarity",S+":correlation_km",O+":alignment_centered",B+":KernelSet.take"])
p("C118","Rankings and similarities do not depend on the order of the samples",
  "In exact arithmetic: if the kernel matrices of the members of a second KernelSet are those of a first one with the samples in another order, and the targets are given in that order, rank_kernels with method 'align/corr' gives the same scores or the same exception. Likewise pairwise_similarity gives the same table, with either metric, also where it is NaN. center_km and normalize_km of the matrix in another order give the result in that order, and normalize_km raises KMNormError for both or neither. If the matrices of the members of one KernelSet are those of another at some of the samples, in any order and number, so is composite_KM of every composite class (ProductKernel: over plain ndarrays). For symmetric kernels a KernelMatrix attached to the same points in another order has the matrix in that order; for kernels that are not symmetric it need not.",
  "all sets and pairs of programs, all orders, all n by n matrices of numbers (plain ndarrays with n at least 2 for 'corr'), all targets, whatever is asked for in case of a vanishing norm",
  "Relates two runs on data in different orders; a test fixes one order.",
  [R+":alignment_ranking",R+":rank_kernels",S+":pairwise_similarity",S+":correlation_km",O+":alignment_centered",O+":center_km",O+":normalize_km",B+":SumKernel",B+":ProductKernel",B+":AverageKernel",B+":WeightedAverageKernel"])
out=os.path.join(os.path.dirname(os.path.abspath(__file__)),"..","properties.jsonl")
with open(out,"w") as f:
    for x in P: f.write(json.dumps(x,ensure_ascii=False)+"\n")
print(len(P))
