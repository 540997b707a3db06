{
 "C01": [
  "proved",
  "Every history, every valid or invalid index, kernels that raise at arbitrary calls."
 ],
 "C02": [
  "partial",
  "Each pair at most once: proved for all histories. One sample: n(n+1)/2 bound proved. Two samples: n*m bound proved while nothing is normalised; false otherwise (refuted: normalisation evaluates k(x,x) and k(y,y) too). In general at most n*m + (n+m)(1+f) evaluations, where f is the number of operations that raised an exception (C02_two_samples_bound); there is no bound in terms of the samples only, since every failed normalisation evaluates the self-similarities again (C02_unbounded_refuted)."
 ],
 "C03": [
  "partial",
  "Exact reals with infinities and NaN (no rounding). One sample: proved for every kernel that supports format() and any values. Two samples: proved if no self-similarity of the first sample is negative or NaN; false otherwise (refuted), and false for user callables with NaN values (refuted). For two samples the outcome is determined after every history (C03_two_samples_exact): the normalisation of the complete matrix, in sparse format exactly if km[:, :] was the first request."
 ],
 "C04": [
  "partial",
  "Proved for histories without full_sparse and whole-matrix indexing (contents also with the latter); false in general (refuted). What full is after every history is proved exactly (C04_exact): dense, sparse, or only the upper triangle, depending on the first request and later whole-matrix indexing."
 ],
 "C05": [
  "partial",
  "Element symmetry proved for all histories and kernels. full symmetric without full_sparse; false after full_sparse (refuted). Exactly (C05_exact): symmetric after every history, unless full_sparse was the first request and the whole matrix was never indexed; then zero below the diagonal."
 ],
 "C06": [
  "proved",
  "Traces and kernel calls equal those of a new object with the same record of past kernel calls; for kernels that do not depend on earlier calls (all built-in ones) equal to those of a new object."
 ],
 "C07": [
  "partial",
  "Rejected first sample changes nothing (C07_rejected_first_partial); false for a rejected second sample (C07_refuted). What such a rejection leaves is proved exactly: the memo, the sizes and the stored matrices stay, so an element read before keeps its value and any other is computed from the rejected arrays (C07_second_rejected, C07_features_rejected, C07_sizes_kept); for one sample, once full has returned, no rejected attach_to changes any later outcome (C07_after_full)."
 ],
 "C08": [
  "partial",
  "As stated it is false (refuted, dense and sparse). Whenever full returns, after any failures, what it returns is determined (C08_exact, C08_exact_dense): kernel values up to some position, row by row, above and below the diagonal, one of the two parts complete, the rest NaN (zeros after a sparse request). If no operation raised RuntimeError since attach_to and full_sparse was not read, it is the true kernel matrix (C08_uninterrupted). Element access is always true (C01)."
 ],
 "C09": [
  "proved",
  ""
 ],
 "C10": [
  "partial",
  "Proved for strictly increasing lists; false for unsorted or repeated indices (refuted). The outcome for every index expression is in C09_valid_accepted: rows and columns in increasing order without repetitions."
 ],
 "C11": [
  "proved",
  ""
 ],
 "C12": [
  "partial",
  "attach_to and index accesses: proved. After a successful full (kernels that do not raise): exactly, reading full again evaluates nothing, an index access evaluates at most pairs strictly below the diagonal, and none with one sample, normalized=True or no full_sparse (C12_exact); the remaining case does evaluate (refuted)."
 ],
 "C13": [
  "proved",
  ""
 ],
 "C14": [
  "partial",
  "Proved for histories without full_sparse and whole-matrix indexing; false in general (refuted). The outcome after every history is proved exactly (C14_exact): ValueError if the history left a sparse matrix behind, the centring of the kernel matrix otherwise."
 ],
 "C15": [
  "proved",
  ""
 ],
 "C16": [
  "proved",
  ""
 ],
 "C17": [
  "partial",
  "Proved for kernels supporting format(); false for KernelFromCallable (refuted). C17_exact: the only case in which full raises is the first request of a matrix with a non-finite entry of a kernel without format()."
 ],
 "C18": [
  "proved",
  "Exact reals with infinities and NaN (no rounding). Finite entries for the values; rejection for arbitrary entries."
 ],
 "C19": [
  "proved",
  "Exact reals with infinities and NaN (no rounding)."
 ],
 "C20": [
  "proved",
  "Exact reals with infinities and NaN (no rounding). Failure modes for arbitrary entries including infinities and NaN."
 ],
 "C21": [
  "proved",
  "Exact reals with infinities and NaN (no rounding)."
 ],
 "C22": [
  "proved",
  "Exact reals with infinities and NaN (no rounding). Stated for ndarrays and numpy.matrix, the documented input type; C22_refuted_sparse shows that it fails for scipy.sparse input, which KernelMatrix.frob_norm can pass. C22_sparse gives what it is then: the sum of the entries of the matrix product."
 ],
 "C23": [
  "proved",
  "Exact reals with infinities and NaN (no rounding)."
 ],
 "C24": [
  "proved",
  "Exact reals with infinities and NaN (no rounding)."
 ],
 "C25": [
  "proved",
  "Exact reals with infinities and NaN (no rounding). Dense member matrices."
 ],
 "C26": [
  "proved",
  "Exact reals with infinities and NaN (no rounding). The eigensolver is a parameter assumed correct on the matrix at hand."
 ],
 "C27": [
  "proved",
  "Exact reals with infinities and NaN (no rounding). Arbitrary shapes, dtypes and contents."
 ],
 "C28": [
  "proved",
  "Exact reals with infinities and NaN (no rounding). C28_refuted_negative_b shows b >= 0 is needed."
 ],
 "C29": [
  "proved",
  "Exact reals with infinities and NaN (no rounding). sigma = NaN excluded (max(NaN, eps) stays NaN)."
 ],
 "C30": [
  "proved",
  "Exact reals with infinities and NaN (no rounding). "
 ],
 "C31": [
  "proved",
  "Exact reals with infinities and NaN (no rounding). "
 ],
 "C32": [
  "proved",
  "Exact reals with infinities and NaN (no rounding). "
 ],
 "C33": [
  "proved",
  "Range and positive semidefiniteness of the fraction for vectors of length >= 1 (0/0 is NaN: C33_empty)."
 ],
 "C34": [
  "proved",
  "Exact reals with infinities and NaN (no rounding). "
 ],
 "C35": [
  "proved",
  "Shape and element claims for arrays whose dtype already matches; C35_conversion covers the others."
 ],
 "C61": [
  "partial",
  "Exact reals with infinities and NaN (no rounding). Proved for histories without full_sparse and whole-matrix indexing; false in general (refuted). The outcome after every history is proved exactly (C61_exact, C61_steady): the norm of what the history left behind at the first frob_norm, and the same value ever after."
 ],
 "C62": [
  "proved",
  "Exact reals with infinities and NaN (no rounding). "
 ],
 "C63": [
  "proved",
  "Exact reals with infinities and NaN (no rounding). "
 ],
 "C64": [
  "proved",
  "Exact reals with infinities and NaN (no rounding). "
 ],
 "C39": [
  "proved",
  "Proved with the stated proviso (no member is re-attached behind the back of a set), and in particular for programs that attach sets only to samples of their size; the refutation shows the proviso is needed because take shares members."
 ],
 "C40": [
  "proved",
  "The all-or-nothing behaviour of extend holds in every state reached without re-attaching members behind the back of a set; C40_extend_refuted shows what happens otherwise."
 ],
 "C41": [
  "proved",
  "take with integer indices."
 ],
 "C42": [
  "partial",
  "The stated property is false for attach_to (C42_attach_subset_refuted). Exactly (C42_exact): the original set keeps its members and num_samples, the members that were taken are re-attached, everything else is unchanged. All other operations, and attach_to/set_attr for sets that share no member, leave the original set alone (C42_partial, C42_disjoint)."
 ],
 "C43": [
  "proved",
  "C43_precomputed states exactly what a failing attach_to leaves behind; C43_atomic_refuted is the witness that it is not all-or-nothing."
 ],
 "C44": [
  "partial",
  "The stated property is false: sequences of length 1 are not broadcast (C44_length_one_refuted) and sets with precomputed members fail midway (C44_precomputed_refuted). Exactly what set_attr does, for every set, repeated and precomputed members included, is C44_exact with C44_wrong_length; C44_get_attr and C44_attr_value say how get_attr sees it."
 ],
 "C45": [
  "partial",
  "Proved for kernel matrix objects, refuted for every non-empty 2-D ndarray; C45_array and its companions say what happens to an ndarray of every other shape (3-D: the set of its slices)."
 ],
 "C46": [
  "partial",
  "False for arrays with one row or one column (refuted; exact behaviour in C46_one_row). All other shapes proved, with exact reals, infinities and NaN."
 ],
 "C47": [
  "partial",
  "Empty selections raise NameError, slices with step 0 ValueError (refuted). All other index expressions proved."
 ],
 "C65": [
  "proved",
  ""
 ],
 "C36": [
  "partial",
  "SumKernel and AverageKernel proved for all sets, weights, histories and storage formats; ProductKernel proved if all member matrices are plain ndarrays (refuted otherwise: matrix product) and computed exactly for members with finite entries held in any mixture of formats (C36_product_exact, with two cases in closed form); WeightedAverageKernel proved to be the weighted sum, hence the mean if the weights add up to 1 (refuted otherwise); sets of two-sample matrices refuted (fit raises TypeError)."
 ],
 "C37": [
  "partial",
  "SumKernel, AverageKernel and WeightedAverageKernel (non-negative weights) proved; ProductKernel proved if all member matrices are plain ndarrays, refuted otherwise (C37_product_refuted: with a sparse member the result is not even symmetric)."
 ],
 "C38": [
  "partial",
  "Proved while the set keeps the number of members it had at construction; refuted after append/extend (zip drops the later members; proved that they never count)."
 ],
 "C66": [
  "partial",
  "The stated property is false: a fit that fails while reading or adding members leaves composite_KM silently changed (C66_refuted). Exactly what it leaves is proved for every composite, position and cause of the failure: the combination of the members before the failing one (C66_sum, C66_sum_weights, C66_weighted, C66_average - the plain sum, not divided -, C66_product for plain ndarrays), and nothing if the composite was never fitted; C66_cases shows there always is such a position unless all members return their matrix. Weights of the wrong number change nothing (C66_partial)."
 ],
 "C67": [
  "proved",
  ""
 ],
 "C48": [
  "proved",
  "all parameter lists, with any values failing; the three strategies with the exact kernels; other strategies, bad flags and unacceptable values"
 ],
 "C49": [
  "partial",
  "holds while the bucket is not attached; once attached nothing is ever added (C49_attached), so the claim is refuted in general"
 ],
 "C50": [
  "partial",
  "Exact reals with infinities and NaN (no rounding). The table of metrics is proved; that no entry is undefined is false (constant matrices have the correlation NaN: C50_refuted). Exactly (C50_corr_exact): NaN if and only if one of the two matrices is constant."
 ],
 "C51": [
  "proved",
  "Exact reals with infinities and NaN (no rounding). "
 ],
 "C52": [
  "proved",
  "Exact reals with infinities and NaN (no rounding). Scores of GridSearchCV are a parameter."
 ],
 "C53": [
  "partial",
  "Exact reals with infinities and NaN (no rounding). Holds if no score is NaN; else the first NaN wins (C53_best), so the claim is refuted in general."
 ],
 "C54": [
  "partial",
  "Exact reals with infinities and NaN (no rounding). For finite kernel matrices and targets; a NaN entry gives the score NaN (C54_nan). Exactly, for all matrices and targets (C54_exact): ValueError on different sizes, TypeError for sparse ones, value_if_zero_division if a finite table (nearly) vanishes after centring, else NaN as soon as one entry is infinite or NaN, else the alignment."
 ],
 "C68": [
  "proved",
  "Exact reals with infinities and NaN (no rounding). scipy.stats.pearsonr on finite arrays is modelled by its definition."
 ],
 "C56": [
  "proved",
  "Exact reals with infinities and NaN (no rounding). sklearn's input checks and support vector machines are parameters. "
 ],
 "C57": [
  "proved",
  "Exact reals with infinities and NaN (no rounding). sklearn's input checks and support vector machines are parameters. For kernels whose results do not depend on earlier calls (all built-in ones)."
 ],
 "C58": [
  "proved",
  "Exact reals with infinities and NaN (no rounding). sklearn's input checks and support vector machines are parameters. "
 ],
 "C59": [
  "partial",
  "Exact reals with infinities and NaN (no rounding). sklearn's input checks and support vector machines are parameters. Kernel machines: holds only for parameters other than k_func and normalized, false otherwise (C59_refuted). Optimal-kernel machines: proved for all parameters (C59_optimal)."
 ],
 "C69": [
  "partial",
  "Exact reals with infinities and NaN (no rounding). sklearn's input checks and support vector machines are parameters. The stated property is false: a failed refit mixes the new training data with the old support vector machine (C69_refuted, C69_mixed, C69_refuted_first). Exactly what a failed fit leaves is proved for every cause (C69_exact: rejected data, rejected targets, wrong parameters, unknown learner, kernel matrix that raises, training that raises, SVR in KernelMachine), and each cause does make fit raise its exception (C69_causes). Rejected data change nothing (C69_partial)."
 ],
 "C72": [
  "partial",
  "Exact reals with infinities and NaN (no rounding). sklearn's input checks and support vector machines are parameters. KernelMachine with 'SVR' raises AttributeError (C72_svr, C72_refuted); all other combinations work."
 ],
 "C55": [
  "partial",
  "Exact reals with infinities and NaN (no rounding). sklearn's input checks and support vector machines are parameters. Proved for 'cv_risk'; with 'align/corr' fit raises TypeError (C55_align, C55_align_error, C55_refuted)."
 ],
 "C60": [
  "partial",
  "Exact reals with infinities and NaN (no rounding). sklearn's input checks and support vector machines are parameters. fit and predict never modify the bucket (C60_fit, C60_predict, C60_programs). Refitting on another size works unless the user's bucket was itself attached to a sample (C60_refit_partial, C60_attached, C60_refuted)."
 ],
 "C70": [
  "partial",
  "False: the support vector machine has kernel='rbf' unless the user sets kernel (C70_refuted, C70_default_kernel)."
 ],
 "C71": [
  "partial",
  "Exact reals with infinities and NaN (no rounding). sklearn's input checks and support vector machines are parameters. False if a row is (nearly) zero (C71_refuted, C71_zero_row); exactly (C71_exact, for every default strategy; C71_bucket for every bucket): fit raises KMNormError iff a row is (nearly) zero or, for 'exhaustive', its squared norm is so near 2 that tanh(|x|^2 - 2) (nearly) vanishes (C71_norm_refuted), and otherwise trains."
 ],
 "C73": [
  "proved",
  "Exact reals with infinities and NaN (no rounding). sklearn's input checks and support vector machines are parameters. "
 ],
 "C74": [
  "partial",
  "True whenever all self-similarities on the drawn sample exceed 1e-8 (C74_true, C74_builtin). As stated it is false: MatchCountKernel makes is_psd raise RuntimeError because the drawn sample is numeric (C74_match_count), and a draw with a self-similarity within 1e-8 of zero raises KMNormError (C74_refuted). Exact reals; the eigensolver is assumed correct."
 ],
 "C75": [
  "proved",
  "Any element and value types."
 ],
 "C76": [
  "proved",
  "Floats of the standard library (SpecFloat); what is asked of the platform is the record decent in SpecFloats.v; FMA is not modelled."
 ],
 "C77": [
  "proved",
  "Same floats as C76. The range of magnitudes is the predicate moderate in SpecFloatVal.v; C77_not_exact shows that the bound cannot be replaced by equality."
 ],
 "C78": [
  "partial",
  "False for the arrays that are shared (C78_refuted; C78_write_persists says for all inputs what full returns after a write). Holds for indexing a proper part, the diagonal and the number of kernel evaluations, after any history with writes."
 ],
 "C79": [
  "partial",
  "False: the sample is kept by reference (C79_refuted, C79_two_samples_refuted). Holds for one sample once full has returned. Exactly: the object behaves as one over a fixed table of values, each the kernel value of the samples at some moment (C79_exact; C79_exact_two as long as nothing is normalised)."
 ],
 "C80": [
  "partial",
  "The constructor and the calls are characterised exactly. As stated it is false both ways: only the number of parameters is checked (C80_accepted_refuted, C80_rejected_refuted), and a parameter called name cannot be given (C80_name_refuted). Holds for functions whose first two parameters are positional and whose other required parameters are given."
 ],
 "C81": [
  "partial",
  "str is characterised exactly in every history. False as stated: AttributeError after a first attach_to with a rejected second sample (C81_refuted), stale description after a later one (C81_stale_refuted), and format raises TypeError for all classes but the built-in kernels (C81_format)."
 ],
 "C82": [
  "partial",
  "Holds for sets with members that were not re-attached behind the back of the set (C82_sum, C82_normalised, C82_zero_sum, C82_wrong_count, C82_member_raises, C82_kernels), also for two samples, where the composite classes fail; positive semidefinite for non-negative weights (C82_psd); agrees with SumKernel (C82_sum_kernel). False for the empty set, whose combination is a vector or a number (C82_empty_refuted), and for members re-attached to a single point, which are broadcast to the old size (C82_stale_refuted)."
 ],
 "C83": [
  "proved",
  "C83_set_refused: a KernelSet cannot be attached to categorical data."
 ],
 "C84": [
  "partial",
  "Exact under the representability condition (C84_exact, C84_safe, C84_matrix, C84_linear); symmetric for signed dtypes even on overflow (C84_symmetric). False for unsigned dtypes: the Gaussian and Laplacian kernels are not symmetric on uint8 (C84_unsigned_refuted), a Gaussian kernel matrix of any bandwidth is not positive semidefinite on uint8 data (C84_psd_refuted); overflow makes self-similarities zero or negative (C84_overflow_refuted)."
 ],
 "C85": [
  "proved",
  "Kernels that raise are the subject of C01 and C79; here the kernel never raises. Of rejected index expressions it is known that they raise KMAccessError or ValueError, not which."
 ],
 "C86": [
  "proved",
  "Double precision modelled by the standard library's SpecFloat, products not fused. The accuracy of exp, tanh and pow is a hypothesis with a parameter delta (a platform meeting it with delta = eps is constructed)."
 ],
 "C87": [
  "partial",
  "The last sentence is refuted: without validation the Laplacian kernel accepts arrays of lengths 1 and 2 (C87_lengths_refuted; only Gaussian, Laplacian and Chi2 kernels and only length 1, C87_lengths), boolean arrays raise TypeError or give 1 instead of 2 (C87_bool_refuted, C87_bool_matrix_refuted; exact results in C87_bool_unvalidated, C87_bool_promoted, C87_bool_hadamard), Chi2Kernel overflows on uint8 (C87_chi2_refuted), and a KernelMatrix returns a matrix after a refused attach_to (C87_refused_attach_refuted). All else is proved. The matrix theorem is for normalized=False and non-empty samples; with validation it includes boolean samples."
 ],
 "C88": [
  "partial",
  "All error bounds are proved. The last sentence is refuted: for the linear kernel on 100000, 100001, 100002 the centred matrix is rejected as not symmetric (C88_center_symmetric_refuted; it is accepted when n M <= 2^18, C88_center_symmetric_partial), and for the matrix 10^9 (i + j + 1), whose centred matrix is zero, alignment_centered returns a number that depends on the order of summation (C88_zero_norm_refuted). Fused multiply-add is not modelled."
 ],
 "C89": [
  "partial",
  "All but the last sentence is proved. The last sentence is refuted: from scores -1, 1 - 2^-53 and 1 the second kernel is chosen (C89_best_refuted), from 1/2 and 1/2 + 2^-28 the first (C89_close_refuted). The kernel chosen is always within 3 eps times the spread of the best score, or all scores are within 1.1e-8 (C89_chosen). One score that is not a number makes all of them so and the first kernel is chosen (C89_nan)."
 ],
 "C90": [
  "partial",
  "All but the last sentence is proved. Its three parts are refuted: the average of three copies of a matrix with the entry 0.1 is larger than 0.1 (C90_average_refuted), 1 + 2^-53 + 2^-53 depends on the order (C90_sum_order_refuted), and 2^-600 * 2^-600 is 0 (C90_product_refuted)."
 ],
 "C91": [
  "proved",
  "What the statement does not say is also false: the matrix need not be symmetric to the last bit nor have ones on its diagonal, as LinearKernel on (1, 1), (1, 2) shows (C91_symmetric_refuted)."
 ],
 "C92": [
  "proved",
  "LAPACK is a parameter with the stated accuracy. That every positive semidefinite kernel matrix is found PSD is not claimed and is false: LinearKernel with normalized=False on 160791506, 133526255 (C92_rounding_refuted)."
 ],
 "C93": [
  "proved",
  "Reading full_sparse first is excluded for a reason: frob_norm is then NaN for LinearKernel on the sample 2, -1, -2, where it should be 9 (C93_frob_sparse_refuted); centered raises ValueError (C14_exact). What the norm of a sparse matrix is in general: C93_sparse_norm."
 ],
 "C94": [
  "proved",
  "Symmetry is needed for one sample, where only the upper triangle is computed (C94_asymmetric_refuted); the built-in numeric kernels are symmetric (C94_builtin_symmetric). Finite values are needed with normalized=True: one undefined value spoils the normalised similarities of all other points (C94_normalized_nan_refuted)."
 ],
 "C95": [
  "proved",
  "In exact arithmetic; in floating point the equations hold up to rounding only (C76, C86 bound it). HadamardKernel with a negative exponent, which the constructor accepts, is NaN as soon as a feature is zero in both arguments (C95_common_zero_refuted). C95_hadamard_exact covers every exponent and infinite or NaN features."
 ],
 "C96": [
  "proved",
  "sklearn's input checks and support vector machines are parameters, exact reals. That a failed fit leaves the predictions as they were is false (C96_unchanged_refuted: a machine trained on a 2 x 2 matrix is handed a 2 x 3 matrix)."
 ],
 "C97": [
  "proved",
  "Calls of warnings.warn are recorded, not what Python's warning filter makes of them. Silence after an interrupted computation (C97_interrupted_refuted), for user callables without format() (C97_callable_refuted) or while indexing a part (C97_part_refuted) does not mean finite."
 ],
 "C98": [
  "proved",
  "Exact reals with infinities and NaN (no rounding). Calls of warnings.warn are recorded, not what Python's warning filter makes of them; prints are not. scipy's eigh is a parameter."
 ],
 "C99": [
  "proved",
  "How Python shows a parameter is a function with the stated hypothesis, proved for ints. Attributes reassigned after construction are not considered. KernelFromCallable is not built in: C99_callable_refuted gives one that has the text of a GaussianKernel and computes something else."
 ],
 "C100": [
  "proved",
  "Exact arithmetic. The cosines are stated for points whose squared length exceeds the threshold of normalize_km. Definiteness of Chi2 is not considered."
 ],
 "C101": [
  "proved",
  "Not safe, with schedules: two threads asking for .full at once can leave a matrix with NaN below the diagonal for ever (C101_full_refuted), the later one can be handed a matrix of nothing but NaN (C101_blank_refuted), and num_ker_eval can fall behind the evaluations made (C101_counter_refuted). Single reads and writes of an attribute, a dict entry or an array entry are taken as atomic. Without attach_to, the sparse accesses and kernels whose values do not format; normalisation, centring and the norm are in C108."
 ],
 "C102": [
  "proved",
  "For two samples with normalized=False the history before .full contains no full_sparse (after it .full is incomplete, C04) and no request for normalised values that raised (those may cost n + m calls again, C02). The functions on a whole set: for two samples, members without normalisation; a weight for each member."
 ],
 "C103": [
  "proved",
  "For a KernelMatrix the kernel does not raise on the data; one that raises IndexError ends the loop silently (C103_silent_end). Python ends a loop over __getitem__ only at IndexError, which none of the three classes raises, so list(km) and v in km for an absent v always raise."
 ],
 "C104": [
  "proved",
  "The Frobenius norm of a sparse matrix is excepted: there a NaN can be hidden (C104_sparse_refuted), because the entries of the matrix product are added up (C22, C61)."
 ],
 "C105": [
  "proved",
  "Model of the import system on the import statements and top-level names of all files of the package (sys.modules, half-imported modules, submodules bound in the package, module __getattr__). numpy, scipy and scikit-learn are each installed or not; the definitions themselves do not raise. C105_example: kernelmethods.ranking is an AttributeError until an estimator has been fetched, KernelMachineRegressor is answered but missing from __all__, the composite kernels and MatchCountKernel are not offered by the package."
 ],
 "C106": [
  "proved",
  "The filter is any set of the package's three warnings about a KernelMatrix; warnings of numpy stay warnings. C106_same_state_refuted: an operation that raised because of the filter does not leave the object as the same operation does otherwise (normed_km keeps nothing, and raises again)."
 ],
 "C107": [
  "proved",
  "Without the bounds positive semidefiniteness is false: C107_psd_refuted (the int64 sample [[1449]] has a negative self-similarity with PolyKernel(degree=3, gamma=1, b=1), not with PolyKernel(degree=3)), C107_laplacian_refuted (a similarity above 1)."
 ],
 "C108": [
  "proved",
  "With a second thread making the matrix at the same time the answers can be those for a matrix of NaN, are cached and stay wrong for every later request: C108_stale (every kernel, whatever operations.py computes), C108_cold_refuted. Atomicity as in C101; a function of operations.py reads each entry of the array once."
 ],
 "C109": [
  "proved",
  "diagonal need not be the diagonal of the matrix: C109_diagonal_refuted (2^53 + 1 beside 2^53). For two samples it is assumed that normalize_km_2sample treats diagonals that can be converted as it treats the converted ones (C109_normalisation shows that a normalisation of this kind exists)."
 ],
 "C110": [
  "proved",
  "The bucket is not restored when a warning is raised: C110_unchanged_refuted. The warnings of KernelMatrix are C106; here they stay warnings, as do those of numpy."
 ],
 "C111": [
  "proved",
  "Exact arithmetic. ProductKernel: ndarray members only, as in C36 and C37; the positive diagonals are needed, since a product with a zero matrix is zero. Different points are not enough for HadamardKernel (1 and -1, C111_hadamard_refuted) and for MatchCountKernel (the four pairs of two letters, C111_match_refuted). C111_example has a set in which one member is positive definite and the others are not."
 ],
 "C112": [
  "proved",
  "Conversion to float64 is exact (no rounding). Without the bounds the kernels of the exhaustive bucket are wrong: LaplacianKernel(gamma=32) gives the int64 numbers 0 and 2^59 the similarity 1, SigmoidKernel(gamma=32) gives 2^29 and itself a negative one (C112_bucket_refuted). Parameters beyond the dtype, and unsigned arrays with negative integer parameters (float64 or OverflowError, depending on the version of numpy), are outside the model."
 ],
 "C113": [
  "proved",
  "It is false that full always agrees with diag and indexing (C113_refuted: a matrix of 1 of size 2 whose num_samples and value are changed after full has been read). Conversions of NaN, infinities and numbers beyond int64 to int64 depend on the processor, those of integers with more than 53 bits to float64 round: parameters of the model."
 ],
 "C114": [
  "proved",
  "It is false that full stays symmetric (C114_refuted, for every accepted array of size 2 or more). Views and copies are numpy's rules for basic indexing and indexing with lists; written values are of the dtype of the array."
 ],
 "C115": [
  "proved",
  "In double precision the order does matter (C90_sum_order_refuted); with members that are not plain ndarrays ProductKernel is a matrix product (C36_product_matrices) and depends on the order (C115_product_refuted)."
 ],
 "C116": [
  "proved",
  "Without the condition on the norms it is false: any targets can be divided by a number such that all scores are 0 (C116_refuted)."
 ],
 "C117": [
  "proved",
  "'align' is computed with the default value for vanishing norms, as pairwise_similarity does."
 ],
 "C118": [
  "proved",
  "C118_asymmetric_refuted shows that the last part needs a symmetric kernel: only the upper triangle is computed. In floating point sums depend on their order; cross-validation scores depend on how the folds are drawn, which is not modelled."
 ]
}