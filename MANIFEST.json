{
 "claims": [
  {
   "property": "C01",
   "status": "proved",
   "theorems": [
    "C01_getitem_values",
    "C01_symmetric_kernel"
   ],
   "note": "Every history, every valid or invalid index, kernels that raise at arbitrary calls."
  },
  {
   "property": "C02",
   "status": "partial",
   "theorems": [
    "C02_pairs_once",
    "C02_one_sample_bound",
    "C02_two_samples_partial",
    "C02_two_samples_bound",
    "C02_two_samples_refuted",
    "C02_unbounded_refuted"
   ],
   "note": "Each pair at most once: proved for all histories. One sample: n(n+1)/2 bound proved. Two samples: n*m bound proved while nothing is normalised; false otherwise (refuted: normalisation evaluates k(x,x) and k(y,y) too). In general at most n*m + (n+m)(1+f) evaluations, where f is the number of operations that raised an exception (C02_two_samples_bound); there is no bound in terms of the samples only, since every failed normalisation evaluates the self-similarities again (C02_unbounded_refuted)."
  },
  {
   "property": "C03",
   "status": "partial",
   "theorems": [
    "C03_one_sample",
    "C03_value",
    "C03_error",
    "C03_two_samples_partial",
    "C03_refuted_callable",
    "C03_refuted_two_samples",
    "C03_two_samples_exact"
   ],
   "note": "Exact reals with infinities and NaN (no rounding). One sample: proved for every kernel that supports format() and any values. Two samples: proved if no self-similarity of the first sample is negative or NaN; false otherwise (refuted), and false for user callables with NaN values (refuted). For two samples the outcome is determined after every history (C03_two_samples_exact): the normalisation of the complete matrix, in sparse format exactly if km[:, :] was the first request."
  },
  {
   "property": "C04",
   "status": "partial",
   "theorems": [
    "C04_full_partial",
    "C04_contents_partial",
    "C04_refuted_full_sparse",
    "C04_refuted_whole_index",
    "C04_exact"
   ],
   "note": "Proved for histories without full_sparse and whole-matrix indexing (contents also with the latter); false in general (refuted). What full is after every history is proved exactly (C04_exact): dense, sparse, or only the upper triangle, depending on the first request and later whole-matrix indexing."
  },
  {
   "property": "C05",
   "status": "partial",
   "theorems": [
    "C05_elements_symmetric",
    "C05_full_symmetric",
    "C05_full_refuted",
    "C05_exact"
   ],
   "note": "Element symmetry proved for all histories and kernels. full symmetric without full_sparse; false after full_sparse (refuted). Exactly (C05_exact): symmetric after every history, unless full_sparse was the first request and the whole matrix was never indexed; then zero below the diagonal."
  },
  {
   "property": "C06",
   "status": "proved",
   "theorems": [
    "C06_fresh_slate",
    "C06_steady",
    "C06_builtin"
   ],
   "note": "Traces and kernel calls equal those of a new object with the same record of past kernel calls; for kernels that do not depend on earlier calls (all built-in ones) equal to those of a new object."
  },
  {
   "property": "C07",
   "status": "partial",
   "theorems": [
    "C07_rejected_first_partial",
    "C07_rejection_is_ValueError",
    "C07_refuted",
    "C07_second_rejected",
    "C07_features_rejected",
    "C07_sizes_kept",
    "C07_after_full"
   ],
   "note": "Rejected first sample changes nothing (C07_rejected_first_partial); false for a rejected second sample (C07_refuted). What such a rejection leaves is proved exactly: the memo, the sizes and the stored matrices stay, so an element read before keeps its value and any other is computed from the rejected arrays (C07_second_rejected, C07_features_rejected, C07_sizes_kept); for one sample, once full has returned, no rejected attach_to changes any later outcome (C07_after_full)."
  },
  {
   "property": "C08",
   "status": "partial",
   "theorems": [
    "C08_true_or_nan_partial",
    "C08_refuted",
    "C08_refuted_sparse",
    "C08_exact",
    "C08_exact_dense",
    "C08_uninterrupted"
   ],
   "note": "As stated it is false (refuted, dense and sparse). Whenever full returns, after any failures, what it returns is determined (C08_exact, C08_exact_dense): kernel values up to some position, row by row, above and below the diagonal, one of the two parts complete, the rest NaN (zeros after a sparse request). If no operation raised RuntimeError since attach_to and full_sparse was not read, it is the true kernel matrix (C08_uninterrupted). Element access is always true (C01)."
  },
  {
   "property": "C09",
   "status": "proved",
   "theorems": [
    "C09_invalid_rejected",
    "C09_valid_accepted",
    "C09_selection_exists"
   ],
   "note": ""
  },
  {
   "property": "C10",
   "status": "partial",
   "theorems": [
    "C10_increasing_partial",
    "C10_refuted_order",
    "C10_refuted_repetition"
   ],
   "note": "Proved for strictly increasing lists; false for unsorted or repeated indices (refuted). The outcome for every index expression is in C09_valid_accepted: rows and columns in increasing order without repetitions."
  },
  {
   "property": "C11",
   "status": "proved",
   "theorems": [
    "C11_flat_is_row_major",
    "C11_flat_value",
    "C11_flat_out_of_range"
   ],
   "note": ""
  },
  {
   "property": "C12",
   "status": "partial",
   "theorems": [
    "C12_attach_evaluates_nothing",
    "C12_only_requested",
    "C12_nothing_after_full_partial",
    "C12_refuted",
    "C12_exact",
    "C12_exact_example"
   ],
   "note": "attach_to and index accesses: proved. After a successful full (kernels that do not raise): exactly, reading full again evaluates nothing, an index access evaluates at most pairs strictly below the diagonal, and none with one sample, normalized=True or no full_sparse (C12_exact); the remaining case does evaluate (refuted)."
  },
  {
   "property": "C13",
   "status": "proved",
   "theorems": [
    "C13_diagonal_values",
    "C13_diagonal_total",
    "C13_diagonal_two_samples"
   ],
   "note": ""
  },
  {
   "property": "C14",
   "status": "partial",
   "theorems": [
    "C14_centered_partial",
    "C14_two_samples",
    "C14_refuted",
    "C14_exact"
   ],
   "note": "Proved for histories without full_sparse and whole-matrix indexing; false in general (refuted). The outcome after every history is proved exactly (C14_exact): ValueError if the history left a sparse matrix behind, the centring of the kernel matrix otherwise."
  },
  {
   "property": "C15",
   "status": "proved",
   "theorems": [
    "C15_attributes"
   ],
   "note": ""
  },
  {
   "property": "C16",
   "status": "proved",
   "theorems": [
    "C16_sizes",
    "C16_shapes_of_matrices"
   ],
   "note": ""
  },
  {
   "property": "C17",
   "status": "partial",
   "theorems": [
    "C17_no_exception_partial",
    "C17_refuted",
    "C17_exact"
   ],
   "note": "Proved for kernels supporting format(); false for KernelFromCallable (refuted). C17_exact: the only case in which full raises is the first request of a matrix with a non-finite entry of a kernel without format()."
  },
  {
   "property": "C18",
   "status": "proved",
   "theorems": [
    "C18_entries",
    "C18_sums_zero",
    "C18_idempotent",
    "C18_shift",
    "C18_symmetric",
    "C18_psd",
    "C18_rejects"
   ],
   "note": "Exact reals with infinities and NaN (no rounding). Finite entries for the values; rejection for arbitrary entries."
  },
  {
   "property": "C19",
   "status": "proved",
   "theorems": [
    "C19_entries",
    "C19_unit_diagonal",
    "C19_symmetric",
    "C19_psd",
    "C19_idempotent",
    "C19_scale_invariant"
   ],
   "note": "Exact reals with infinities and NaN (no rounding)."
  },
  {
   "property": "C20",
   "status": "proved",
   "theorems": [
    "C20_nonsquare",
    "C20_norm_error_iff",
    "C20_other_method",
    "C20_otherwise_succeeds",
    "C20_negative_diagonal"
   ],
   "note": "Exact reals with infinities and NaN (no rounding). Failure modes for arbitrary entries including infinities and NaN."
  },
  {
   "property": "C21",
   "status": "proved",
   "theorems": [
    "C21_agrees_with_one_sample",
    "C21_entries",
    "C21_failures"
   ],
   "note": "Exact reals with infinities and NaN (no rounding)."
  },
  {
   "property": "C22",
   "status": "proved",
   "theorems": [
    "C22_sparse",
    "C22_values",
    "C22_symmetric",
    "C22_bilinear",
    "C22_cauchy_schwarz",
    "C22_norm_definite",
    "C22_shapes",
    "C22_refuted_sparse"
   ],
   "note": "Exact reals with infinities and NaN (no rounding). Stated for ndarrays and numpy.matrix, the documented input type; C22_refuted_sparse shows that it fails for scipy.sparse input, which KernelMatrix.frob_norm can pass. C22_sparse gives what it is then: the sum of the entries of the matrix product."
  },
  {
   "property": "C23",
   "status": "proved",
   "theorems": [
    "C23_exact",
    "C23_determined",
    "C23_value",
    "C23_range",
    "C23_symmetric",
    "C23_self",
    "C23_shift",
    "C23_scale",
    "C23_psd"
   ],
   "note": "Exact reals with infinities and NaN (no rounding)."
  },
  {
   "property": "C24",
   "status": "proved",
   "theorems": [
    "C24_vanishing",
    "C24_already_centered",
    "C24_rejects"
   ],
   "note": "Exact reals with infinities and NaN (no rounding)."
  },
  {
   "property": "C25",
   "status": "proved",
   "theorems": [
    "C25_raises_exact",
    "C25_value_exact",
    "C25_exact_example",
    "C25_weighted_sum",
    "C25_normalised",
    "C25_zero_sum",
    "C25_wrong_count",
    "C25_member_failure",
    "C25_psd"
   ],
   "note": "Exact reals with infinities and NaN (no rounding). Dense member matrices."
  },
  {
   "property": "C26",
   "status": "proved",
   "theorems": [
    "C26_decides",
    "C26_solver_failure",
    "C26_total",
    "C26_exact"
   ],
   "note": "Exact reals with infinities and NaN (no rounding). The eigensolver is a parameter assumed correct on the matrix at hand."
  },
  {
   "property": "C27",
   "status": "proved",
   "theorems": [
    "C27_numeric",
    "C27_categorical"
   ],
   "note": "Exact reals with infinities and NaN (no rounding). Arbitrary shapes, dtypes and contents."
  },
  {
   "property": "C28",
   "status": "proved",
   "theorems": [
    "C28_linear_value",
    "C28_linear",
    "C28_poly_value",
    "C28_poly",
    "C28_refuted_negative_b"
   ],
   "note": "Exact reals with infinities and NaN (no rounding). C28_refuted_negative_b shows b >= 0 is needed."
  },
  {
   "property": "C29",
   "status": "proved",
   "theorems": [
    "C29_gaussian",
    "C29_gaussian_range",
    "C29_gaussian_one_iff",
    "C29_laplacian",
    "C29_laplacian_value"
   ],
   "note": "Exact reals with infinities and NaN (no rounding). sigma = NaN excluded (max(NaN, eps) stays NaN)."
  },
  {
   "property": "C30",
   "status": "proved",
   "theorems": [
    "C30_negative_iff",
    "C30_value",
    "C30_range",
    "C30_psd"
   ],
   "note": "Exact reals with infinities and NaN (no rounding). "
  },
  {
   "property": "C31",
   "status": "proved",
   "theorems": [
    "C31_finite",
    "C31_value",
    "C31_psd",
    "C31_constructor",
    "C31_negative_alpha_nan"
   ],
   "note": "Exact reals with infinities and NaN (no rounding). "
  },
  {
   "property": "C32",
   "status": "proved",
   "theorems": [
    "C32_range",
    "C32_refuted_psd"
   ],
   "note": "Exact reals with infinities and NaN (no rounding). "
  },
  {
   "property": "C33",
   "status": "proved",
   "theorems": [
    "C33_count",
    "C33_fraction",
    "C33_empty",
    "C33_range",
    "C33_psd",
    "C33_rejects"
   ],
   "note": "Range and positive semidefiniteness of the fraction for vectors of length >= 1 (0/0 is NaN: C33_empty)."
  },
  {
   "property": "C34",
   "status": "proved",
   "theorems": [
    "C34_bandwidth",
    "C34_clamped",
    "C34_gamma_bounds",
    "C34_zero",
    "C34_large",
    "C34_nan"
   ],
   "note": "Exact reals with infinities and NaN (no rounding). "
  },
  {
   "property": "C35",
   "status": "proved",
   "theorems": [
    "C35_1D",
    "C35_2D",
    "C35_conversion",
    "C35_lengths",
    "C35_dtypes",
    "C35_integers",
    "C35_operation",
    "C35_operation_example"
   ],
   "note": "Shape and element claims for arrays whose dtype already matches; C35_conversion covers the others."
  },
  {
   "property": "C36",
   "status": "partial",
   "theorems": [
    "C36_sum_default",
    "C36_sum_weights",
    "C36_sum_wrong_weights",
    "C36_product_partial",
    "C36_average",
    "C36_weighted_sum",
    "C36_weighted_partial",
    "C36_unfitted",
    "C36_constructor",
    "C36_not_a_set",
    "C36_two_samples_fit_raises",
    "C36_kernels_sum",
    "C36_kernels_product",
    "C36_kernels_average",
    "C36_weighted_refuted",
    "C36_product_refuted",
    "C36_two_samples_refuted",
    "C36_product_exact",
    "C36_product_matrices",
    "C36_product_first_sparse"
   ],
   "note": "SumKernel and AverageKernel proved for all sets, weights, histories and storage formats; ProductKernel proved if all member matrices are plain ndarrays (refuted otherwise: matrix product) and computed exactly for members with finite entries held in any mixture of formats (C36_product_exact, with two cases in closed form); WeightedAverageKernel proved to be the weighted sum, hence the mean if the weights add up to 1 (refuted otherwise); sets of two-sample matrices refuted (fit raises TypeError)."
  },
  {
   "property": "C37",
   "status": "partial",
   "theorems": [
    "C37_sum",
    "C37_product_partial",
    "C37_average",
    "C37_weighted",
    "C37_product_refuted"
   ],
   "note": "SumKernel, AverageKernel and WeightedAverageKernel (non-negative weights) proved; ProductKernel proved if all member matrices are plain ndarrays, refuted otherwise (C37_product_refuted: with a sparse member the result is not even symmetric)."
  },
  {
   "property": "C38",
   "status": "partial",
   "theorems": [
    "C38_partial",
    "C38_later_members_ignored",
    "C38_refuted"
   ],
   "note": "Proved while the set keeps the number of members it had at construction; refuted after append/extend (zip drops the later members; proved that they never count)."
  },
  {
   "property": "C39",
   "status": "proved",
   "theorems": [
    "C39_members_size_compatible",
    "C39_same_size_samples",
    "C39_shared_members_refuted"
   ],
   "note": "Proved with the stated proviso (no member is re-attached behind the back of a set), and in particular for programs that attach sets only to samples of their size; the refutation shows the proviso is needed because take shares members."
  },
  {
   "property": "C40",
   "status": "proved",
   "theorems": [
    "C40_append",
    "C40_append_mismatch",
    "C40_append_array",
    "C40_append_raises",
    "C40_extend",
    "C40_extend_mismatch",
    "C40_extend_raises",
    "C40_extend_refuted"
   ],
   "note": "The all-or-nothing behaviour of extend holds in every state reached without re-attaching members behind the back of a set; C40_extend_refuted shows what happens otherwise."
  },
  {
   "property": "C41",
   "status": "proved",
   "theorems": [
    "C41_getitem",
    "C41_take",
    "C41_take_selects",
    "C41_take_out_of_range",
    "C41_iter"
   ],
   "note": "take with integer indices."
  },
  {
   "property": "C42",
   "status": "partial",
   "theorems": [
    "C42_exact",
    "C42_exact_example",
    "C42_partial",
    "C42_disjoint",
    "C42_attach_subset_refuted"
   ],
   "note": "The stated property is false for attach_to (C42_attach_subset_refuted). Exactly (C42_exact): the original set keeps its members and num_samples, the members that were taken are re-attached, everything else is unchanged. All other operations, and attach_to/set_attr for sets that share no member, leave the original set alone (C42_partial, C42_disjoint)."
  },
  {
   "property": "C43",
   "status": "proved",
   "theorems": [
    "C43_attach",
    "C43_succeeds",
    "C43_wrong_sample",
    "C43_precomputed",
    "C43_atomic_refuted"
   ],
   "note": "C43_precomputed states exactly what a failing attach_to leaves behind; C43_atomic_refuted is the witness that it is not all-or-nothing."
  },
  {
   "property": "C44",
   "status": "partial",
   "theorems": [
    "C44_exact",
    "C44_exact_example",
    "C44_sequence_partial",
    "C44_scalar",
    "C44_wrong_length",
    "C44_get_attr",
    "C44_attr_value",
    "C44_length_one_refuted",
    "C44_precomputed_refuted"
   ],
   "note": "The stated property is false: sequences of length 1 are not broadcast (C44_length_one_refuted) and sets with precomputed members fail midway (C44_precomputed_refuted). Exactly what set_attr does, for every set, repeated and precomputed members included, is C44_exact with C44_wrong_length; C44_get_attr and C44_attr_value say how get_attr sees it."
  },
  {
   "property": "C45",
   "status": "partial",
   "theorems": [
    "C45_array",
    "C45_array_entries",
    "C45_array_bad_slice",
    "C45_array_number",
    "C45_array_shapes",
    "C45_array_example",
    "C45_one_matrix_partial",
    "C45_list",
    "C45_other_types",
    "C45_ndarray_refuted"
   ],
   "note": "Proved for kernel matrix objects, refuted for every non-empty 2-D ndarray; C45_array and its companions say what happens to an ndarray of every other shape (3-D: the set of its slices)."
  },
  {
   "property": "C46",
   "status": "partial",
   "theorems": [
    "C46_square_partial",
    "C46_not_square_partial",
    "C46_not_2D",
    "C46_one_row",
    "C46_one_row_refuted",
    "C46_observers",
    "C46_observers_any"
   ],
   "note": "False for arrays with one row or one column (refuted; exact behaviour in C46_one_row). All other shapes proved, with exact reals, infinities and NaN."
  },
  {
   "property": "C47",
   "status": "partial",
   "theorems": [
    "C47_full_diag",
    "C47_getitem",
    "C47_invalid_partial",
    "C47_empty_refuted",
    "C47_unreadable_refuted"
   ],
   "note": "Empty selections raise NameError, slices with step 0 ValueError (refuted). All other index expressions proved."
  },
  {
   "property": "C48",
   "status": "proved",
   "theorems": [
    "C48_contents",
    "C48_bad_values",
    "C48_bad_flags",
    "C48_exhaustive",
    "C48_light",
    "C48_linear_only",
    "C48_other_strategies"
   ],
   "note": "all parameter lists, with any values failing; the three strategies with the exact kernels; other strategies, bad flags and unacceptable values"
  },
  {
   "property": "C49",
   "status": "partial",
   "theorems": [
    "C49_partial",
    "C49_refused",
    "C49_attached",
    "C49_refuted"
   ],
   "note": "holds while the bucket is not attached; once attached nothing is ever added (C49_attached), so the claim is refuted in general"
  },
  {
   "property": "C50",
   "status": "partial",
   "theorems": [
    "C50_partial",
    "C50_unknown",
    "C50_raises",
    "C50_align",
    "C50_corr",
    "C50_corr_exact",
    "C50_refuted"
   ],
   "note": "Exact reals with infinities and NaN (no rounding). The table of metrics is proved; that no entry is undefined is false (constant matrices have the correlation NaN: C50_refuted). Exactly (C50_corr_exact): NaN if and only if one of the two matrices is constant."
  },
  {
   "property": "C51",
   "status": "proved",
   "theorems": [
    "C51_value",
    "C51_psd"
   ],
   "note": "Exact reals with infinities and NaN (no rounding). "
  },
  {
   "property": "C52",
   "status": "proved",
   "theorems": [
    "C52_learner",
    "C52_value",
    "C52_range",
    "C52_other",
    "C52_cv",
    "C52_cv_errors"
   ],
   "note": "Exact reals with infinities and NaN (no rounding). Scores of GridSearchCV are a parameter."
  },
  {
   "property": "C53",
   "status": "partial",
   "theorems": [
    "C53_best",
    "C53_refuses",
    "C53_bad_sample",
    "C53_align_partial",
    "C53_cv_partial",
    "C53_refuted"
   ],
   "note": "Exact reals with infinities and NaN (no rounding). Holds if no score is NaN; else the first NaN wins (C53_best), so the claim is refuted in general."
  },
  {
   "property": "C54",
   "status": "partial",
   "theorems": [
    "C54_exact",
    "C54_exact_example",
    "C54_value",
    "C54_partial",
    "C54_nan"
   ],
   "note": "Exact reals with infinities and NaN (no rounding). For finite kernel matrices and targets; a NaN entry gives the score NaN (C54_nan). Exactly, for all matrices and targets (C54_exact): ValueError on different sizes, TypeError for sparse ones, value_if_zero_division if a finite table (nearly) vanishes after centring, else NaN as soon as one entry is infinite or NaN, else the alignment."
  },
  {
   "property": "C55",
   "status": "partial",
   "theorems": [
    "C55_partial",
    "C55_align",
    "C55_align_error",
    "C55_example",
    "C55_refuted"
   ],
   "note": "Exact reals with infinities and NaN (no rounding). sklearn's input checks and support vector machines are parameters. Proved for 'cv_risk'; with 'align/corr' fit raises TypeError (C55_align, C55_align_error, C55_refuted)."
  },
  {
   "property": "C56",
   "status": "proved",
   "theorems": [
    "C56_fit",
    "C56_predict",
    "C56_fit_predict",
    "C56_training_data",
    "C56_example",
    "C56_default_kernel"
   ],
   "note": "Exact reals with infinities and NaN (no rounding). sklearn's input checks and support vector machines are parameters. "
  },
  {
   "property": "C57",
   "status": "proved",
   "theorems": [
    "C57_repeatable",
    "C57_before_fit",
    "C57_builtin",
    "C57_example",
    "C57_optimal_before_fit",
    "C57_optimal_repeatable",
    "C57_optimal_example"
   ],
   "note": "Exact reals with infinities and NaN (no rounding). sklearn's input checks and support vector machines are parameters. For kernels whose results do not depend on earlier calls (all built-in ones)."
  },
  {
   "property": "C58",
   "status": "proved",
   "theorems": [
    "C58_round_trip",
    "C58_no_change",
    "C58_example",
    "C58_optimal_round_trip",
    "C58_optimal_get",
    "C58_optimal_settings",
    "C58_optimal_example"
   ],
   "note": "Exact reals with infinities and NaN (no rounding). sklearn's input checks and support vector machines are parameters. "
  },
  {
   "property": "C59",
   "status": "partial",
   "theorems": [
    "C59_partial",
    "C59_uses_new_kernel",
    "C59_refuted",
    "C59_optimal"
   ],
   "note": "Exact reals with infinities and NaN (no rounding). sklearn's input checks and support vector machines are parameters. Kernel machines: holds only for parameters other than k_func and normalized, false otherwise (C59_refuted). Optimal-kernel machines: proved for all parameters (C59_optimal)."
  },
  {
   "property": "C60",
   "status": "partial",
   "theorems": [
    "C60_fit",
    "C60_predict",
    "C60_programs",
    "C60_refit_partial",
    "C60_attached",
    "C60_example",
    "C60_refuted"
   ],
   "note": "Exact reals with infinities and NaN (no rounding). sklearn's input checks and support vector machines are parameters. fit and predict never modify the bucket (C60_fit, C60_predict, C60_programs). Refitting on another size works unless the user's bucket was itself attached to a sample (C60_refit_partial, C60_attached, C60_refuted)."
  },
  {
   "property": "C61",
   "status": "partial",
   "theorems": [
    "C61_frob_partial",
    "C61_value_partial",
    "C61_refuted",
    "C61_exact",
    "C61_steady"
   ],
   "note": "Exact reals with infinities and NaN (no rounding). Proved for histories without full_sparse and whole-matrix indexing; false in general (refuted). The outcome after every history is proved exactly (C61_exact, C61_steady): the norm of what the history left behind at the first frob_norm, and the same value ever after."
  },
  {
   "property": "C62",
   "status": "proved",
   "theorems": [
    "C62_nan_poisons",
    "C62_nan_kernel_value"
   ],
   "note": "Exact reals with infinities and NaN (no rounding). "
  },
  {
   "property": "C63",
   "status": "proved",
   "theorems": [
    "C63_rows_are_calls",
    "C63_total",
    "C63_chi2_total"
   ],
   "note": "Exact reals with infinities and NaN (no rounding). "
  },
  {
   "property": "C64",
   "status": "proved",
   "theorems": [
    "C64_normalised_psd",
    "C64_gaussian"
   ],
   "note": "Exact reals with infinities and NaN (no rounding). "
  },
  {
   "property": "C65",
   "status": "proved",
   "theorems": [
    "C65_ordinary_members",
    "C65_after_attach"
   ],
   "note": ""
  },
  {
   "property": "C66",
   "status": "partial",
   "theorems": [
    "C66_partial",
    "C66_refuted",
    "C66_cases",
    "C66_sum",
    "C66_sum_weights",
    "C66_weighted",
    "C66_average",
    "C66_product",
    "C66_example"
   ],
   "note": "The stated property is false: a fit that fails while reading or adding members leaves composite_KM silently changed (C66_refuted). Exactly what it leaves is proved for every composite, position and cause of the failure: the combination of the members before the failing one (C66_sum, C66_sum_weights, C66_weighted, C66_average - the plain sum, not divided -, C66_product for plain ndarrays), and nothing if the composite was never fitted; C66_cases shows there always is such a position unless all members return their matrix. Weights of the wrong number change nothing (C66_partial)."
  },
  {
   "property": "C67",
   "status": "proved",
   "theorems": [
    "C67_full_repeatable",
    "C67_full_undisturbed"
   ],
   "note": ""
  },
  {
   "property": "C68",
   "status": "proved",
   "theorems": [
    "C68_value",
    "C68_otherwise"
   ],
   "note": "Exact reals with infinities and NaN (no rounding). scipy.stats.pearsonr on finite arrays is modelled by its definition."
  },
  {
   "property": "C69",
   "status": "partial",
   "theorems": [
    "C69_partial",
    "C69_mixed",
    "C69_refuted",
    "C69_refuted_first",
    "C69_exact",
    "C69_causes",
    "C69_exact_example"
   ],
   "note": "Exact reals with infinities and NaN (no rounding). sklearn's input checks and support vector machines are parameters. The stated property is false: a failed refit mixes the new training data with the old support vector machine (C69_refuted, C69_mixed, C69_refuted_first). Exactly what a failed fit leaves is proved for every cause (C69_exact: rejected data, rejected targets, wrong parameters, unknown learner, kernel matrix that raises, training that raises, SVR in KernelMachine), and each cause does make fit raise its exception (C69_causes). Rejected data change nothing (C69_partial)."
  },
  {
   "property": "C72",
   "status": "partial",
   "theorems": [
    "C72_partial",
    "C72_svr",
    "C72_refuted"
   ],
   "note": "Exact reals with infinities and NaN (no rounding). sklearn's input checks and support vector machines are parameters. KernelMachine with 'SVR' raises AttributeError (C72_svr, C72_refuted); all other combinations work."
  },
  {
   "property": "C70",
   "status": "partial",
   "theorems": [
    "C70_default_kernel",
    "C70_refuted"
   ],
   "note": "False: the support vector machine has kernel='rbf' unless the user sets kernel (C70_refuted, C70_default_kernel)."
  },
  {
   "property": "C71",
   "status": "partial",
   "theorems": [
    "C71_zero_row",
    "C71_partial",
    "C71_refuted",
    "C71_example",
    "C71_bucket",
    "C71_exact",
    "C71_norm_refuted"
   ],
   "note": "Exact reals with infinities and NaN (no rounding). sklearn's input checks and support vector machines are parameters. False if a row is (nearly) zero (C71_refuted, C71_zero_row); exactly (C71_exact, for every default strategy; C71_bucket for every bucket): fit raises KMNormError iff a row is (nearly) zero or, for 'exhaustive', its squared norm is so near 2 that tanh(|x|^2 - 2) (nearly) vanishes (C71_norm_refuted), and otherwise trains."
  },
  {
   "property": "C73",
   "status": "proved",
   "theorems": [
    "C73_predict",
    "C73_fit_predict",
    "C73_example"
   ],
   "note": "Exact reals with infinities and NaN (no rounding). sklearn's input checks and support vector machines are parameters. "
  },
  {
   "property": "C74",
   "status": "partial",
   "theorems": [
    "C74_true",
    "C74_builtin",
    "C74_error",
    "C74_exact",
    "C74_false",
    "C74_raises",
    "C74_match_count",
    "C74_refuted",
    "C74_sigmoid",
    "C74_example",
    "C74_example_false"
   ],
   "note": "True whenever all self-similarities on the drawn sample exceed 1e-8 (C74_true, C74_builtin). As stated it is false: MatchCountKernel makes is_psd raise RuntimeError because the drawn sample is numeric (C74_match_count), and a draw with a self-similarity within 1e-8 of zero raises KMNormError (C74_refuted). Exact reals; the eigensolver is assumed correct."
  },
  {
   "property": "C75",
   "status": "proved",
   "theorems": [
    "C75_reports",
    "C75_no_calls",
    "C75_num_samples",
    "C75_exceptions",
    "C75_rejected"
   ],
   "note": "Any element and value types."
  },
  {
   "property": "C76",
   "status": "proved",
   "theorems": [
    "C76_symmetric",
    "C76_unit_diagonal",
    "C76_range",
    "C76_platform_example"
   ],
   "note": "Floats of the standard library (SpecFloat); what is asked of the platform is the record decent in SpecFloats.v; FMA is not modelled."
  },
  {
   "property": "C77",
   "status": "proved",
   "theorems": [
    "C77_not_exact",
    "C77_error",
    "C77_diagonal",
    "C77_symmetric",
    "C77_example",
    "C77_unit_diagonal"
   ],
   "note": "Same floats as C76. The range of magnitudes is the predicate moderate in SpecFloatVal.v; C77_not_exact shows that the bound cannot be replaced by equality."
  },
  {
   "property": "C78",
   "status": "partial",
   "theorems": [
    "C78_indexing_partial",
    "C78_diagonal_partial",
    "C78_pairs_once",
    "C78_write_persists",
    "C78_refuted"
   ],
   "note": "False for the arrays that are shared (C78_refuted; C78_write_persists says for all inputs what full returns after a write). Holds for indexing a proper part, the diagonal and the number of kernel evaluations, after any history with writes."
  },
  {
   "property": "C79",
   "status": "partial",
   "theorems": [
    "C79_after_full_partial",
    "C79_before",
    "C79_refuted",
    "C79_two_samples_refuted",
    "C79_exact",
    "C79_exact_two"
   ],
   "note": "False: the sample is kept by reference (C79_refuted, C79_two_samples_refuted). Holds for one sample once full has returned. Exactly: the object behaves as one over a fixed table of values, each the kernel value of the samples at some moment (C79_exact; C79_exact_two as long as nothing is normalised)."
  },
  {
   "property": "C80",
   "status": "partial",
   "theorems": [
    "C80_constructor",
    "C80_named",
    "C80_call",
    "C80_ordinary_partial",
    "C80_kernel_matrix",
    "C80_accepted_refuted",
    "C80_rejected_refuted",
    "C80_name_refuted"
   ],
   "note": "The constructor and the calls are characterised exactly. As stated it is false both ways: only the number of parameters is checked (C80_accepted_refuted, C80_rejected_refuted), and a parameter called name cannot be given (C80_name_refuted). Holds for functions whose first two parameters are positional and whose other required parameters are given."
  },
  {
   "property": "C81",
   "status": "partial",
   "theorems": [
    "C81_unattached",
    "C81_attached",
    "C81_raises",
    "C81_str_partial",
    "C81_refuted",
    "C81_stale_refuted",
    "C81_set",
    "C81_format"
   ],
   "note": "str is characterised exactly in every history. False as stated: AttributeError after a first attach_to with a rejected second sample (C81_refuted), stale description after a later one (C81_stale_refuted), and format raises TypeError for all classes but the built-in kernels (C81_format)."
  },
  {
   "property": "C82",
   "status": "partial",
   "theorems": [
    "C82_sum",
    "C82_format",
    "C82_normalised",
    "C82_zero_sum",
    "C82_wrong_count",
    "C82_scalar_weights",
    "C82_member_raises",
    "C82_psd",
    "C82_sum_kernel",
    "C82_kernels",
    "C82_empty_refuted",
    "C82_stale_refuted"
   ],
   "note": "Holds for sets with members that were not re-attached behind the back of the set (C82_sum, C82_normalised, C82_zero_sum, C82_wrong_count, C82_member_raises, C82_kernels), also for two samples, where the composite classes fail; positive semidefinite for non-negative weights (C82_psd); agrees with SumKernel (C82_sum_kernel). False for the empty set, whose combination is a vector or a number (C82_empty_refuted), and for members re-attached to a single point, which are broadcast to the old size (C82_stale_refuted)."
  },
  {
   "property": "C83",
   "status": "proved",
   "theorems": [
    "C83_full",
    "C83_two_samples",
    "C83_psd",
    "C83_normalised",
    "C83_normalised_two",
    "C83_no_features",
    "C83_set_refused"
   ],
   "note": "C83_set_refused: a KernelSet cannot be attached to categorical data."
  },
  {
   "property": "C84",
   "status": "partial",
   "theorems": [
    "C84_exact",
    "C84_linear",
    "C84_symmetric",
    "C84_safe",
    "C84_matrix",
    "C84_unsigned_refuted",
    "C84_psd_refuted",
    "C84_overflow_refuted"
   ],
   "note": "Exact under the representability condition (C84_exact, C84_safe, C84_matrix, C84_linear); symmetric for signed dtypes even on overflow (C84_symmetric). False for unsigned dtypes: the Gaussian and Laplacian kernels are not symmetric on uint8 (C84_unsigned_refuted), a Gaussian kernel matrix of any bandwidth is not positive semidefinite on uint8 data (C84_psd_refuted); overflow makes self-similarities zero or negative (C84_overflow_refuted)."
  },
  {
   "property": "C85",
   "status": "proved",
   "theorems": [
    "C85_reference",
    "C85_one_case"
   ],
   "note": "Kernels that raise are the subject of C01 and C79; here the kernel never raises. Of rejected index expressions it is known that they raise KMAccessError or ValueError, not which."
  },
  {
   "property": "C86",
   "status": "proved",
   "theorems": [
    "C86_chi2",
    "C86_chi2_psd",
    "C86_hadamard",
    "C86_hadamard_psd",
    "C86_powers_example",
    "C86_linear",
    "C86_linear_exact",
    "C86_linear_psd",
    "C86_laplacian",
    "C86_gaussian",
    "C86_laplacian_psd",
    "C86_gaussian_psd",
    "C86_sigmoid",
    "C86_polynomial",
    "C86_platform_example"
   ],
   "note": "Double precision modelled by the standard library's SpecFloat, products not fused. The accuracy of exp, tanh and pow is a hypothesis with a parameter delta (a platform meeting it with delta = eps is constructed)."
  },
  {
   "property": "C87",
   "status": "partial",
   "theorems": [
    "C87_common_type",
    "C87_exact",
    "C87_bool",
    "C87_lengths",
    "C87_errors",
    "C87_symmetric",
    "C87_bool_unvalidated",
    "C87_bool_promoted",
    "C87_bool_hadamard",
    "C87_bool_refuted",
    "C87_chi2_refuted",
    "C87_lengths_refuted",
    "C87_refused_attach_refuted",
    "C87_matrix",
    "C87_bool_matrix_refuted"
   ],
   "note": "The last sentence is refuted: without validation the Laplacian kernel accepts arrays of lengths 1 and 2 (C87_lengths_refuted; only Gaussian, Laplacian and Chi2 kernels and only length 1, C87_lengths), boolean arrays raise TypeError or give 1 instead of 2 (C87_bool_refuted, C87_bool_matrix_refuted; exact results in C87_bool_unvalidated, C87_bool_promoted, C87_bool_hadamard), Chi2Kernel overflows on uint8 (C87_chi2_refuted), and a KernelMatrix returns a matrix after a refused attach_to (C87_refused_attach_refuted). All else is proved. The matrix theorem is for normalized=False and non-empty samples; with validation it includes boolean samples."
  },
  {
   "property": "C88",
   "status": "partial",
   "theorems": [
    "C88_center",
    "C88_center_rows",
    "C88_center_psd",
    "C88_center_symmetric_partial",
    "C88_center_symmetric_refuted",
    "C88_frobenius",
    "C88_frobenius_norm",
    "C88_alignment",
    "C88_alignment_range",
    "C88_alignment_self",
    "C88_zero_norm_refuted",
    "C88_linear_combination",
    "C88_weighted_mean",
    "C88_example"
   ],
   "note": "All error bounds are proved. The last sentence is refuted: for the linear kernel on 100000, 100001, 100002 the centred matrix is rejected as not symmetric (C88_center_symmetric_refuted; it is accepted when n M <= 2^18, C88_center_symmetric_partial), and for the matrix 10^9 (i + j + 1), whose centred matrix is zero, alignment_centered returns a number that depends on the order of summation (C88_zero_norm_refuted). Fused multiply-add is not modelled."
  },
  {
   "property": "C89",
   "status": "partial",
   "theorems": [
    "C89_scores",
    "C89_scaled",
    "C89_constant",
    "C89_chosen",
    "C89_nan",
    "C89_errors",
    "C89_best_refuted",
    "C89_close_refuted",
    "C89_example"
   ],
   "note": "All but the last sentence is proved. The last sentence is refuted: from scores -1, 1 - 2^-53 and 1 the second kernel is chosen (C89_best_refuted), from 1/2 and 1/2 + 2^-28 the first (C89_close_refuted). The kernel chosen is always within 3 eps times the spread of the best score, or all scores are within 1.1e-8 (C89_chosen). One score that is not a number makes all of them so and the first kernel is chosen (C89_nan)."
  },
  {
   "property": "C90",
   "status": "partial",
   "theorems": [
    "C90_sum",
    "C90_weighted",
    "C90_average",
    "C90_product",
    "C90_unit_range",
    "C90_order",
    "C90_weights",
    "C90_symmetric",
    "C90_psd",
    "C90_average_refuted",
    "C90_sum_order_refuted",
    "C90_product_refuted",
    "C90_example"
   ],
   "note": "All but the last sentence is proved. Its three parts are refuted: the average of three copies of a matrix with the entry 0.1 is larger than 0.1 (C90_average_refuted), 1 + 2^-53 + 2^-53 depends on the order (C90_sum_order_refuted), and 2^-600 * 2^-600 is 0 (C90_product_refuted)."
  },
  {
   "property": "C91",
   "status": "proved",
   "theorems": [
    "C91_one_sample",
    "C91_two_samples",
    "C91_error",
    "C91_error_second",
    "C91_close",
    "C91_unit",
    "C91_unit_two",
    "C91_linear",
    "C91_linear_two",
    "C91_symmetric_refuted",
    "C91_example"
   ],
   "note": "What the statement does not say is also false: the matrix need not be symmetric to the last bit nor have ones on its diagonal, as LinearKernel on (1, 1), (1, 2) shows (C91_symmetric_refuted)."
  },
  {
   "property": "C92",
   "status": "proved",
   "theorems": [
    "C92_true",
    "C92_false",
    "C92_total",
    "C92_is_psd",
    "C92_is_psd_linear",
    "C92_error",
    "C92_rounding_refuted",
    "C92_example"
   ],
   "note": "LAPACK is a parameter with the stated accuracy. That every positive semidefinite kernel matrix is found PSD is not claimed and is false: LinearKernel with normalized=False on 160791506, 133526255 (C92_rounding_refuted)."
  },
  {
   "property": "C93",
   "status": "proved",
   "theorems": [
    "C93_centered",
    "C93_centered_close",
    "C93_centered_linear",
    "C93_frob",
    "C93_frob_positive",
    "C93_frob_sparse_refuted",
    "C93_example",
    "C93_sparse_norm"
   ],
   "note": "Reading full_sparse first is excluded for a reason: frob_norm is then NaN for LinearKernel on the sample 2, -1, -2, where it should be 9 (C93_frob_sparse_refuted); centered raises ValueError (C14_exact). What the norm of a sparse matrix is in general: C93_sparse_norm."
  },
  {
   "property": "C94",
   "status": "proved",
   "theorems": [
    "C94_full",
    "C94_transpose",
    "C94_asymmetric_refuted",
    "C94_normalized",
    "C94_centered",
    "C94_frob_norm",
    "C94_alignment",
    "C94_ranking",
    "C94_builtin_symmetric",
    "C94_normalized_nan_refuted"
   ],
   "note": "Symmetry is needed for one sample, where only the upper triangle is computed (C94_asymmetric_refuted); the built-in numeric kernels are symmetric (C94_builtin_symmetric). Finite values are needed with normalized=True: one undefined value spoils the normalised similarities of all other points (C94_normalized_nan_refuted)."
  },
  {
   "property": "C95",
   "status": "proved",
   "theorems": [
    "C95_hadamard_exact",
    "C95_hadamard_example",
    "C95_order",
    "C95_rows",
    "C95_matrix",
    "C95_common_zero",
    "C95_common_feature",
    "C95_translation",
    "C95_signs",
    "C95_scaling_poly",
    "C95_scaling_sigmoid",
    "C95_scaling_laplacian",
    "C95_scaling_chi2",
    "C95_scaling_gaussian",
    "C95_groups_product",
    "C95_groups_sum",
    "C95_linear",
    "C95_scaling_hadamard",
    "C95_common_zero_refuted",
    "C95_match_order",
    "C95_match_groups"
   ],
   "note": "In exact arithmetic; in floating point the equations hold up to rounding only (C76, C86 bound it). HadamardKernel with a negative exponent, which the constructor accepts, is NaN as soon as a feature is zero in both arguments (C95_common_zero_refuted). C95_hadamard_exact covers every exponent and infinite or NaN features."
  },
  {
   "property": "C96",
   "status": "proved",
   "theorems": [
    "C96_exact",
    "C96_programs",
    "C96_predictions",
    "C96_causes",
    "C96_unchanged_refuted",
    "C96_example"
   ],
   "note": "sklearn's input checks and support vector machines are parameters, exact reals. That a failed fit leaves the predictions as they were is false (C96_unchanged_refuted: a machine trained on a 2 x 2 matrix is handed a 2 x 3 matrix)."
  },
  {
   "property": "C97",
   "status": "proved",
   "theorems": [
    "C97_recorded",
    "C97_silent",
    "C97_exact",
    "C97_normalisation",
    "C97_once",
    "C97_interrupted_refuted",
    "C97_callable_refuted",
    "C97_part_refuted"
   ],
   "note": "Calls of warnings.warn are recorded, not what Python's warning filter makes of them. Silence after an interrupted computation (C97_interrupted_refuted), for user callables without format() (C97_callable_refuted) or while indexing a part (C97_part_refuted) does not mean finite."
  },
  {
   "property": "C98",
   "status": "proved",
   "theorems": [
    "C98_psd_outcome",
    "C98_psd_exact",
    "C98_psd_true",
    "C98_alignment_outcome",
    "C98_alignment_exact",
    "C98_bucket_outcome",
    "C98_added_or_warned",
    "C98_warned_exact",
    "C98_no_values",
    "C98_new",
    "C98_make",
    "C98_example"
   ],
   "note": "Exact reals with infinities and NaN (no rounding). Calls of warnings.warn are recorded, not what Python's warning filter makes of them; prints are not. scipy's eigh is a parameter."
  },
  {
   "property": "C99",
   "status": "proved",
   "theorems": [
    "C99_same",
    "C99_constructed",
    "C99_name",
    "C99_constructor",
    "C99_matrices",
    "C99_sets",
    "C99_readable",
    "C99_example",
    "C99_classes",
    "C99_callable",
    "C99_callable_refuted"
   ],
   "note": "How Python shows a parameter is a function with the stated hypothesis, proved for ints. Attributes reassigned after construction are not considered. KernelFromCallable is not built in: C99_callable_refuted gives one that has the text of a GaussianKernel and computes something else."
  },
  {
   "property": "C100",
   "status": "proved",
   "theorems": [
    "C100_gaussian",
    "C100_laplacian",
    "C100_matrix",
    "C100_linear",
    "C100_gaussian_order",
    "C100_laplacian_order",
    "C100_chi2_order",
    "C100_laplacian_one",
    "C100_chi2_one",
    "C100_bandwidth",
    "C100_gamma",
    "C100_inner",
    "C100_distance",
    "C100_cosine",
    "C100_example"
   ],
   "note": "Exact arithmetic. The cosines are stated for points whose squared length exceeds the threshold of normalize_km. Definiteness of Chi2 is not considered."
  },
  {
   "property": "C101",
   "status": "proved",
   "theorems": [
    "C101_results",
    "C101_single",
    "C101_upper",
    "C101_evaluations",
    "C101_quiet",
    "C101_finishes",
    "C101_answers",
    "C101_full_refuted",
    "C101_blank_refuted",
    "C101_counter_refuted",
    "C101_example",
    "C101_alone",
    "C101_attached",
    "C101_alone_example"
   ],
   "note": "Not safe, with schedules: two threads asking for .full at once can leave a matrix with NaN below the diagonal for ever (C101_full_refuted), the later one can be handed a matrix of nothing but NaN (C101_blank_refuted), and num_ker_eval can fall behind the evaluations made (C101_counter_refuted). Single reads and writes of an attribute, a dict entry or an array entry are taken as atomic. Without attach_to, the sparse accesses and kernels whose values do not format; normalisation, centring and the norm are in C108."
  },
  {
   "property": "C102",
   "status": "proved",
   "theorems": [
    "C102_each_pair_once",
    "C102_count",
    "C102_nothing_more",
    "C102_fit",
    "C102_predict",
    "C102_free",
    "C102_machine_example",
    "C102_search",
    "C102_optimal_fit",
    "C102_optimal_predict",
    "C102_optimal_example",
    "C102_set_functions",
    "C102_set_again",
    "C102_set_example"
   ],
   "note": "For two samples with normalized=False the history before .full contains no full_sparse (after it .full is incomplete, C04) and no request for normalised values that raised (those may cost n + m calls again, C02). The functions on a whole set: for two samples, members without normalisation; a weight for each member."
  },
  {
   "property": "C103",
   "status": "proved",
   "theorems": [
    "C103_deterministic",
    "C103_loop",
    "C103_contains",
    "C103_truth",
    "C103_other_classes",
    "C103_set_loop"
   ],
   "note": "For a KernelMatrix the kernel does not raise on the data; one that raises IndexError ends the loop silently (C103_silent_end). Python ends a loop over __getitem__ only at IndexError, which none of the three classes raises, so list(km) and v in km for an absent v always raise."
  },
  {
   "property": "C104",
   "status": "proved",
   "theorems": [
    "C104_isclose",
    "C104_normalize_rejects",
    "C104_normalize2_rejects",
    "C104_combination_rejects",
    "C104_square_only",
    "C104_nan_normalize",
    "C104_nan_dense",
    "C104_nan_alignment",
    "C104_nan_combination",
    "C104_nan_psd",
    "C104_infinite_normalize",
    "C104_infinite_norm",
    "C104_nan_matrix",
    "C104_sparse_refuted"
   ],
   "note": "The Frobenius norm of a sparse matrix is excepted: there a NaN can be hidden (C104_sparse_refuted), because the entries of the matrix product are added up (C22, C61)."
  },
  {
   "property": "C105",
   "status": "proved",
   "theorems": [
    "C105_import",
    "C105_history_free",
    "C105_names",
    "C105_estimators",
    "C105_star",
    "C105_all",
    "C105_unknown",
    "C105_submodules",
    "C105_aliases",
    "C105_example"
   ],
   "note": "Model of the import system on the import statements and top-level names of all files of the package (sys.modules, half-imported modules, submodules bound in the package, module __getattr__). numpy, scipy and scikit-learn are each installed or not; the definitions themselves do not raise. C105_example: kernelmethods.ranking is an AttributeError until an estimator has been fetched, KernelMachineRegressor is answered but missing from __all__, the composite kernels and MatchCountKernel are not offered by the package."
  },
  {
   "property": "C106",
   "status": "proved",
   "theorems": [
    "C106_warning",
    "C106_lenient",
    "C106_full",
    "C106_parts",
    "C106_forever",
    "C106_lifted",
    "C106_whole",
    "C106_same_state_refuted"
   ],
   "note": "The filter is any set of the package's three warnings about a KernelMatrix; warnings of numpy stay warnings. C106_same_state_refuted: an operation that raised because of the filter does not leave the object as the same operation does otherwise (normed_km keeps nothing, and raises again)."
  },
  {
   "property": "C107",
   "status": "proved",
   "theorems": [
    "C107_value",
    "C107_any",
    "C107_poly",
    "C107_bound",
    "C107_negative",
    "C107_symmetric",
    "C107_matrix",
    "C107_psd",
    "C107_psd_refuted",
    "C107_laplacian_refuted"
   ],
   "note": "Without the bounds positive semidefiniteness is false: C107_psd_refuted (the int64 sample [[1449]] has a negative self-similarity with PolyKernel(degree=3, gamma=1, b=1), not with PolyKernel(degree=3)), C107_laplacian_refuted (a similarity above 1)."
  },
  {
   "property": "C108",
   "status": "proved",
   "theorems": [
    "C108_single",
    "C108_after",
    "C108_alone",
    "C108_stale",
    "C108_cold_refuted",
    "C108_example"
   ],
   "note": "With a second thread making the matrix at the same time the answers can be those for a matrix of NaN, are cached and stay wrong for every later request: C108_stale (every kernel, whatever operations.py computes), C108_cold_refuted. Atomicity as in C101; a function of operations.py reads each entry of the array once."
  },
  {
   "property": "C109",
   "status": "proved",
   "theorems": [
    "C109_same",
    "C109_diagonal",
    "C109_parts",
    "C109_once",
    "C109_int",
    "C109_diagonal_refuted",
    "C109_example",
    "C109_normalisation"
   ],
   "note": "diagonal need not be the diagonal of the matrix: C109_diagonal_refuted (2^53 + 1 beside 2^53). For two samples it is assumed that normalize_km_2sample treats diagonals that can be converted as it treats the converted ones (C109_normalisation shows that a normalisation of this kind exists)."
  },
  {
   "property": "C110",
   "status": "proved",
   "theorems": [
    "C110_psd",
    "C110_psd_true",
    "C110_alignment",
    "C110_alignment_value",
    "C110_bucket",
    "C110_stops",
    "C110_prefix",
    "C110_new_frame",
    "C110_make",
    "C110_pairwise",
    "C110_ranking",
    "C110_rank_any",
    "C110_unchanged_refuted",
    "C110_example"
   ],
   "note": "The bucket is not restored when a warning is raised: C110_unchanged_refuted. The warnings of KernelMatrix are C106; here they stay warnings, as do those of numpy."
  },
  {
   "property": "C111",
   "status": "proved",
   "theorems": [
    "C111_chi2",
    "C111_chi2_matrix",
    "C111_sum",
    "C111_average",
    "C111_product",
    "C111_weighted",
    "C111_normalise",
    "C111_center",
    "C111_example",
    "C111_hadamard",
    "C111_hadamard_only",
    "C111_hadamard_line",
    "C111_hadamard_refuted",
    "C111_hadamard_exact",
    "C111_hadamard_exact_example",
    "C111_match",
    "C111_match_feature",
    "C111_match_equal",
    "C111_match_refuted",
    "C111_matrix",
    "C111_match_matrix",
    "C111_matrix_example",
    "C111_poly",
    "C111_poly_many",
    "C111_poly_line",
    "C111_poly_example",
    "C111_poly_exact",
    "C111_linear",
    "C111_linear_example"
   ],
   "note": "Exact arithmetic. ProductKernel: ndarray members only, as in C36 and C37; the positive diagonals are needed, since a product with a zero matrix is zero. Different points are not enough for HadamardKernel (1 and -1, C111_hadamard_refuted) and for MatchCountKernel (the four pairs of two letters, C111_match_refuted). C111_example has a set in which one member is positive definite and the others are not."
  },
  {
   "property": "C112",
   "status": "proved",
   "theorems": [
    "C112_floats",
    "C112_integers",
    "C112_exact",
    "C112_value",
    "C112_symmetric",
    "C112_strategies",
    "C112_bucket",
    "C112_matrix",
    "C112_bucket_refuted",
    "C112_example"
   ],
   "note": "Conversion to float64 is exact (no rounding). Without the bounds the kernels of the exhaustive bucket are wrong: LaplacianKernel(gamma=32) gives the int64 numbers 0 and 2^59 the similarity 1, SigmoidKernel(gamma=32) gives 2^29 and itself a negative one (C112_bucket_refuted). Parameters beyond the dtype, and unsigned arrays with negative integer parameters (float64 or OverflowError, depending on the version of numpy), are outside the model."
  },
  {
   "property": "C113",
   "status": "proved",
   "theorems": [
    "C113_diag",
    "C113_item",
    "C113_full_unread",
    "C113_full_first",
    "C113_reads",
    "C113_write",
    "C113_write_beyond",
    "C113_bad_index",
    "C113_negative",
    "C113_refuted",
    "C113_example"
   ],
   "note": "It is false that full always agrees with diag and indexing (C113_refuted: a matrix of 1 of size 2 whose num_samples and value are changed after full has been read). Conversions of NaN, infinities and numbers beyond int64 to int64 depend on the processor, those of integers with more than 53 bits to float64 round: parameters of the model."
  },
  {
   "property": "C114",
   "status": "proved",
   "theorems": [
    "C114_init",
    "C114_full",
    "C114_reads",
    "C114_size",
    "C114_same",
    "C114_list",
    "C114_refuted",
    "C114_example",
    "C114_row_example"
   ],
   "note": "It is false that full stays symmetric (C114_refuted, for every accepted array of size 2 or more). Views and copies are numpy's rules for basic indexing and indexing with lists; written values are of the dtype of the array."
  },
  {
   "property": "C115",
   "status": "proved",
   "theorems": [
    "C115_sum",
    "C115_sum_default",
    "C115_weighted",
    "C115_average",
    "C115_product",
    "C115_weighted_is_sum",
    "C115_average_is_sum",
    "C115_product_refuted",
    "C115_take"
   ],
   "note": "In double precision the order does matter (C90_sum_order_refuted); with members that are not plain ndarrays ProductKernel is a matrix product (C36_product_matrices) and depends on the order (C115_product_refuted)."
  },
  {
   "property": "C116",
   "status": "proved",
   "theorems": [
    "C116_cv_order",
    "C116_cv_affine",
    "C116_norm",
    "C116_targets",
    "C116_sign",
    "C116_classes",
    "C116_optimal",
    "C116_order",
    "C116_refuted"
   ],
   "note": "Without the condition on the norms it is false: any targets can be divided by a number such that all scores are 0 (C116_refuted)."
  },
  {
   "property": "C117",
   "status": "proved",
   "theorems": [
    "C117_selection",
    "C117_take"
   ],
   "note": "'align' is computed with the default value for vanishing norms, as pairwise_similarity does."
  },
  {
   "property": "C118",
   "status": "proved",
   "theorems": [
    "C118_composites",
    "C118_ranking",
    "C118_similarity",
    "C118_kernel",
    "C118_operations",
    "C118_asymmetric_refuted"
   ],
   "note": "C118_asymmetric_refuted shows that the last part needs a symmetric kernel: only the upper triangle is computed. In floating point sums depend on their order; cross-validation scores depend on how the folds are drawn, which is not modelled."
  }
 ]
}