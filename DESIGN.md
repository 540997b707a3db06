# A Rocq (Coq 8.16.1) model of raamana/kernelmethods

## 1. Approach

The library is a stateful, lazily evaluated, memoising matrix object (`KernelMatrix`) plus containers
(`KernelSet`, `KernelBucket`, composites), numerical operations on matrices, a family of kernel functions, and
thin estimator wrappers. Each part is modelled function by function, branch by branch, by total Gallina functions.
Python exceptions are values (`Raise e`). A method that mutates `self` and then raises returns the *mutated*
state together with the exception, so partial updates are visible.

Four numeric levels are used.

* **State machines** (`KMModel.v`, `SetModel.v`, `AliasModel.v`) are polymorphic in the type `V` of matrix values and
  take the kernel function as an arbitrary parameter. Their theorems hold for IEEE doubles exactly as for reals.
* **Exact numerics** (`OpsModel.v`, `KernelsModel.v`, `KMXModel.v`, `CompositeModel.v`, `RankModel.v`, `AlgoModel.v`,
  `IsPsdModel.v`) are over `xr` = real number | +inf | -inf | NaN (`XReal.v`), i.e. exact real arithmetic with the
  non-finite cases of floating point (`0/0`, `sqrt(-1)`, `inf-inf`), *without rounding, overflow or signed zeros*.
* **IEEE double precision** (`FloatModel.v`) models the numeric kernels and `normalize_km` with the floats of the
  standard library (`SpecFloat`, round to nearest even). What is asked of the platform (summation in some order,
  properties of `pow` and `exp`) is stated as the record `decent` in `SpecFloats.v`.
* **Fixed-width integers** (`IntModel.v`): the kernels on integer samples, with numpy's wrap-around.

### Layout of `rocq/theories` (flat)

* `*Model.v`: the model, each definition with file and lines of the source. `ToyModel.v` has instances for examples.
* `Spec*.v`: independent vocabulary of the properties (what positive semidefinite means, which rows an index selects,
  what a history is, ...).
* `*Facts.v`, `*Props.v`, `KMInv.v`, `KMOps.v`, ...: proofs.
* `Prop_*.v`: the property theorems, each closed by `exact` and followed by `Print Assumptions`, and beside them
  examples showing that their hypotheses can be met. They are generated from the `*Props.v` files by
  `tools/split_props.py`, so that the statements can be read without the proofs.

`tools/` also has the generators of `properties.jsonl`, `MANIFEST.json` and section 5, and the mutation tester whose
results are in `seeded/LOG.jsonl`.

Names: `Cnn_...` belongs to property Cnn. `..._refuted...` is an existential counterexample in the model to the
property as stated; `..._partial` is the part that does hold (its comment says what is missing).

### Kernel calls, crashes and histories

The kernel of a `KernelMatrix` is `kf : nat -> row -> row -> res V`. The first argument is the number of kernel
calls made so far (ghost), so a kernel may raise at *any* chosen call (exceptions, KeyboardInterrupt inside the kernel,
memory errors) and succeed later. Where a theorem needs a deterministic value it says so, for
rows of the attached data only: `never_raises` (`kf t u v = Ok (k u v)` for all rows u, v) or `returns_only`
(`... \/ exists e, kf t u v = Raise e`: it may raise at any call). The built-in kernels satisfy these (C63).
A ghost log records every kernel call. Histories are lists of operations; "for every history" is `forall ops`;
operations that raise do not end a history. C78/C79 add actions of the caller (writes into shared arrays) to histories.

Kernel sets hold references: `SetModel.v` has a heap of kernel matrix objects, and "for every program" is "for every list of
operations on the heap".

## 2. Trusted base

* Coq 8.16.1 kernel (and the `coqc` toolchain). No axioms of our own.
* Axioms listed by `Print Assumptions`: section 5. All come from the standard library's real numbers and `Classical`.
* The reading of Python, numpy, scipy and sklearn primitives recorded in the comments of the model (the code was not
  run).
* Modelling simplifications, each stated in the comment of the definition concerned and summarised in section 4.

## 3. Per property

| id | what is modelled | how it is proved |
|---|---|---|
| C01 | `KernelMatrix` object, memo dict, index resolution | invariant "memo is sound" preserved by every operation, even when the kernel raises |
| C02 | same, with evaluation counter and ghost log | keys of the memo are distinct and in range; counting argument |
| C03, C04 | flags and the three cached arrays | strong state invariant for never-raising kernels; C04 is false (`_refuted`) after `full_sparse` or `[:,:]`, `_partial` otherwise |
| C05 | same | corollary of the invariant, no symmetry assumption on the kernel; `C05_exact` says for which histories `full` is symmetric |
| C06 | `attach_to` + `_reset` | state equality with a fresh object up to the unreachable stale centred array; simulation over all later operations |
| C07 | `attach_to` failing branches | `_refuted` (second sample rejected after the first was stored), `_partial` for a rejected first sample; `C07_second_rejected`, `C07_features_rejected`, `C07_sizes_kept` say exactly what the rejected call leaves, `C07_after_full` when it is harmless |
| C08 | population loop with kernel raising at any call | `_refuted` by a crash witness, `_partial` (element access); `C08_exact` determines the returned matrix after any failures (KMPart.v: a predicate on the stored matrix carried through every operation), `C08_uninterrupted` when it is complete |
| C09 - C13 | index expressions, Python `slice.indices`, `sorted(set(..))`, `unravel_index` | functional correctness against an independent selection spec; C10 `_refuted` |
| C14 - C16 | centred array, attribute dict, sizes | invariant / refinement to the last-write map |
| C17 | the warning's `.format(kernel)` | `_refuted` for `KernelFromCallable` (broken `__format__`), positive for other kernels |
| C18 - C26 | operations.py over `xr` matrices | closed forms, then real algebra, Cauchy-Schwarz, Gram factorisation of PSD matrices; eigensolver as hypothesis |
| C27 - C34 | kernel functions over real vectors | algebra; PSD via Schur product theorem, exponential series, Cauchy matrices, min kernel |
| C35 | shapes and dtypes of n-d arrays | list reasoning |
| C36 - C38 | composites over a heap of kernel matrices | folds; WeightedAverage does not divide (`_refuted`); ProductKernel over mixed storage formats exactly; zip truncation (`_refuted`) |
| C39 - C45 | heap of shared objects, `KernelSet` as list of references | invariants over operation sequences; aliasing witness |
| C46, C47 | precomputed and constant kernel matrices | case analysis; 1 x n witness; NameError witness |
| C48, C49 | bucket construction | folds over parameter lists with failing members |
| C50 - C54, C68 | ranking and similarity of kernels | folds; scores of cross-validation as a parameter; Pearson correlation by Cauchy-Schwarz |
| C55 - C60, C69 - C73 | estimator wrappers with sklearn's checks and estimators as parameters | equational, on top of the KernelMatrix theorems; C69: case analysis of every failure point of fit (SpecFailMach.v) |
| C61, C62, C64, C67 | KernelMatrix over exact arithmetic | composition of the object invariants with the theorems on operations and kernels |
| C63 | built-in kernels as kernels of a KernelMatrix | discharges the hypotheses of C01 - C17 for all built-in kernels |
| C65, C66 | members of sets; failed fits of composites: exactly what they leave (SpecFailFit.v) | simulation between a heap cell and a lone object; loop cut at the failing member; witnesses |
| C74 | `is_psd` | C26 + C19 + PSD theorems, exact characterisation with the tolerance |
| C75 | unattached KernelMatrix | case analysis over all histories |
| C76 | kernels in double precision | bit-level reasoning on SpecFloat (commutativity, signs, exactness of x - x) |
| C77 | `normalize_km` in double precision | relative error lemmas for product, quotient and square root of SpecFloat, composed |
| C86 | kernels in double precision (`SpecFloatErr.v`) | error lemmas for all finite doubles including subnormal ones, induction over summation trees; exact kernels are positive semidefinite (C28 - C31), entrywise error |
| C80 | `KernelFromCallable`, Python signatures and the binding of arguments | induction over signatures against a declarative account of which calls suit them; witnesses |
| C81 | `__str__`, `__repr__`, `__format__` | history induction on the attached sample and its description; witnesses |
| C82 | `linear_combination` over the heap | fold with an accumulator that starts as a vector, a number or a matrix; witnesses |
| C83 | kernel matrices over categorical data | C03/C04 for string samples, with the counts as sums of indicator Gram matrices |
| C84 | kernels on integer data | wrapping as the representable residue; modular sums; witnesses on uint8/int8 |
| C87 | arrays of mixed dtypes, skip_input_checks | common dtype as least type containing both (all 64 pairs by computation), reduction to C84 or to floats, broadcasting; witnesses |
| C88 | operations on matrices in double precision (`SpecFloatOps.v`) | error of division and of matrix products for all finite doubles, perturbation of a ratio of a product and two norms, exact Cauchy-Schwarz; witnesses by computation on two platforms |
| C89 | cross-validation scores in double precision (`SpecFloatRank.v`) | results of all operations are the nearest doubles (`FloatNearest.v`), hence monotone; witnesses by computation |
| C90 | composite kernels in double precision (`SpecFloatComposite.v`) | bounds that are doubles are kept by nearest results; induction over the members; Schur product theorem |
| C91 | normalized kernel matrices in double precision, every history (`SpecFloatKM.v`) | format-independent normal form of the result (`FloatKMFacts.v`), error of 1/sqrt and two products without a lower bound on the entries, Cauchy-Schwarz |
| C92 | `is_PSD` and `is_psd` in double precision (`SpecFloatKM.v`) | backward stable eigensolver as a hypothesis; quadratic forms of nearby matrices; C86 and C91 for the kernels |
| C93 | `centered` and `frob_norm` in double precision (`SpecFloatKM.v`) | C14, C61 generic in the arithmetic, C88 for the error; Gram matrix of centred samples |
| C94 | kernel matrices of samples drawn from other samples (`SpecSample.v`) | entries as kernel values of points, sums over permuted indices; two objects with independent histories |
| C95 | kernel values under changes of the features | sums of extended reals over permuted pairs, closed forms of C28-C33 on finite vectors |
| C96 | failed fits of OptimalKernelSVC/SVR (`SpecFailOpt.v`) | case analysis of the failure points; the matrix of the kernel found has been computed (`full` is idempotent), so it cannot fail |
| C97, C17_exact | the calls of `warn` of a KernelMatrix (`WarnModel.v`: the operations of `KMModel.v` once more, with a log) | `C97_recorded` ties the logged operations to the model; silence: invariant `good` (what is stored and flagged computed is finite unless announced); exact: simulation by the reference object of C85 |
| C98 | the calls of `warn` in operations.py and sampling.py (`OpWarnModel.v`: the functions of `OpsModel.v` and `BucketModel.v` once more, with a log) | `C98_*_outcome` tie the logged functions to the models; exact conditions from C53_exact-style analysis of `alignment_centered`, and induction over the values given to a bucket |
| C99 | the text of kernels (`NameModel.v`), of kernel matrices and sets (`PrintModel.v`) | strings cut at the first comma, space or line break; showing a parameter is a function, injective and free of these characters |
| C100 | built-in kernels (`KernelsModel.v`), `KernelMatrix` (`KMModel.v`) | `pos_def`, `distinct`, `res_le` in `PosDefProps.v`; sums, distances and inner products of `SpecKM`/`RSum` |
| C101 | `KernelMatrix` under several threads (`ThreadModel.v`) | `right_at`, `upper_complete`, `all_complete`, `outcome_ok`, `calls_of`, `answered` in `ThreadProps.v`; `same_object`, `as_call`, `same_outcome` in `SpecThread.v` (agreement with `KMModel.v`) |
| C102 | the ghost log of kernel calls of `KMModel.v` and `AlgoModel.v` | `wants_normalised`, `normalised_well`, `row_pairs` in `SpecCost.v`; the counts are over the log itself (`after`, `before` of `SpecKM.v`, `calls_made` of `AlgoModel.v`, `calls_at` of `SpecOptCost.v`); `consumes`, `attached_since` in `SpecSetCost.v` |
| C103 | `IterModel.v`: Python's protocol for `for` and `in` over `__getitem__` (relations `loop`, `search`), `KernelSet.__iter__` as a generator interleaved with arbitrary programs, truth value through `__len__` | entries by `entry` and `product` of `SpecKM.v`, programs in the rounds by `wrun` |
| C104 | `FloatModel.v`, `FloatOpsModel.v`, `FloatKMModel.v` on all doubles | `tiny` in `SpecFloatNan.v`; `adds_up`, `decent` of `SpecFloats.v` |
| C105 | `ImportModel.v` (import statements and top-level names of every file) | `home`, `estimator`, `needed`, `unknown` of `SpecImport.v` |
| C106 | the operations with a `warn` that raises (`StrictModel.v`), each operation under its own filter | `after_e`, `first_outcome`, `own_exceptions` of `SpecStrict.v`; `left_matrix` of `SpecRef.v`, `warns` of `SpecWarn.v` |
| C107 | kernels with integer parameters (`IntParamModel.v`) | `integer_of`, `outer`, `data_safe` (`SpecIntParam.v`) in unbounded integers, `fits` of `SpecInt.v`, matrices of `SpecKM`; psd of `SpecLinAlg.v` |
| C108 | derived requests of several threads (`ThreadDerivedModel.v` on `ThreadModel.v`) | `the_matrix`, `right_answer`, `only_elements`, `nothing_derived`, `same_derived` of `SpecThreadDerived.v`; `outcome_ok` of `ThreadProps.v`; proofs by rely-guarantee (`ThreadDerivedFacts.v`) |
| C109 | KernelMatrix with results to be converted (`ConvModel.v`) | `raw_returns`, `converted`, `raw_after`, `raw_outcome`, `normalises_alike`, `raw_calls` of `SpecConv.v`; `entry`, `selection2`, `submatrix` of `SpecKM.v`; `fval` |
| C110 | operations.py, sampling.py, ranking.py while warnings are exceptions (`OpStrictModel.v`: the functions of `OpWarnModel.v` and `RankModel.v` with `warn` raising) | `strict_outcome`, `square_arrays` of `Prop_OpStrict.v`; `failing` (C98), `vanishes` (C23), `set_is`, `new_matrices`, `objects_kept`, `sets_kept` |
| C111 | linear, polynomial, Chi2, Hadamard and match-count kernels (`KernelsModel.v`), `KernelMatrix` (`KMModel.v`), composites (`CompositeModel.v`), `normalize_km`, `center_km` (`OpsModel.v`) | `pos_def`, `distinct` of `PosDefProps.v`; `pd_array`, `positive_diagonal` of `Prop_Definite.v`; `pos_def_strings`, `class_weight` of `Prop_MatchDef.v`; `abs_weight` of `Prop_HadNull.v`; `affine_product` of `Prop_PolyExact.v`; `fits`, `fulls`, `psd_array` of `SpecComposite.v` |
| C112 | numeric_kernels.py:144, 256, 396 with integer and float parameters on integer arrays, the ranges of config.py:48-59 (`MixModel.v`) | `mix_safe` of `SpecMix.v`; `fits`, `zsum`, `safe` of `SpecInt.v`; `exhaustive_kernels`, `light_kernels` of `SpecBucket.v` |
| C113 | base.py:869-1036 `ConstantKernelMatrix` with its attributes, dtype and cache (`ConstModel.v`) | `last_num`, `last_value`, `last_dtype`, `converts`, `without_fraction`, `uses_full`, `writes`, `assigns` of `SpecConst.v`; `cvalid`, `cselection` of `SpecSet.v` |
| C114 | base.py:796-866 `KernelMatrixPrecomputed`, its array and the names that share it (`PreModel.v`); numpy's views and copies | `written`, `entry_after`, `own_after` stated in `Prop_Pre.v`; `close` of `Prop_Cont.v`, `array2` of `SpecSet.v` |
| C115 | base.py:1367-1575 composites (`CompositeModel.v`), pairs of programs | `composite_of`, `same_composite` stated in `Prop_Order.v`; `fits`, `fulls`, `is_matrix`, `is_vector` of `SpecComposite.v` |
| C116 | ranking.py:17-190 alignment rankings (`RankModel.v`), pairs of targets and of sets | `recode`, `two_classes`, `target_norm` stated in `Prop_Recode.v`; `target_matrix`, `finite_matrices`, `candidate`, `gram` of `SpecRank.v`; `centred`, `fnorm` of `SpecLinAlg.v` |
| C117 | sampling.py:271-332 `correlation_km`, `pairwise_similarity`; base.py `KernelSet.take` (`RankModel.v`, `SetModel.v`) | `metric_defined` stated in `Prop_SubTable.v`; `selected`, `fulls`, `finite_matrices` of `SpecSet.v`, `SpecComposite.v`, `SpecRank.v` |
| C118 | ranking.py:58-150, sampling.py:271-332, operations.py centring and alignment, base.py:1367-1575 composites (`RankModel.v`, `OpsModel.v`, `CompositeModel.v`), pairs of runs on reordered samples | `order_of`, `shuffled`, `shuffled_targets` stated in `Prop_Shuffle.v`; `at_samples`, `proper` in `Prop_PickComp.v`; `metric_defined` of `Prop_SubTable.v`; `kernel_matrix` of `SpecKM.v` |
| C85 | `KernelMatrix` against a reference object (`SpecRef.v`) | simulation, operation by operation; C03, C04, C14, C61 exactly from the runs of the reference object |
| C78, C79 | arrays shared with the caller | the memo invariant does not mention the shared arrays; a completely evaluated object never reads its sample (simulation); an object whose samples are written into runs in step with one over a table of values, the table being what it has stored in the end |

## 4. What is modelled and what is not

| file of /repo/kernelmethods | modelled | not modelled |
|---|---|---|
| base.py 27-146 (kernel functions) | call interface, `is_psd`, `KernelFromCallable` (constructor, call, name, text), `__format__`, `__str__` with parameters (`NameModel.v`) | how Python shows a number or a dict |
| base.py 149-793 (`KernelMatrix`) | everything but the items on the right; names and `__str__` in `PrintModel.v`; results that are not doubles in `ConvModel.v` | text of messages |
| base.py 796-1036 (precomputed, constant) | constructors, indexing, `full`, `diagonal`, `size`; attributes, dtype and cache of constant ones (`ConstModel.v`); the array of precomputed ones and its sharing (`PreModel.v`) | string-valued and complex constants, dtypes other than float64, int64, bool; `num_samples` that is not an integer |
| base.py 1042-1364 (`KernelSet`) | append, extend, attach_to, take, indexing, iteration, set_attr/get_attr, size/commensurability checks, `__str__` | names of members |
| base.py 1367-1575 (composites) | fit, composite_KM, weights, `__str__` | - |
| operations.py | all functions | prints; mixed dense/sparse operands (never occur) |
| numeric_kernels.py, categorical.py | all kernels, on floats, on fixed-width integers (`IntModel.v`, with integer parameters `IntParamModel.v`, with integer and float ones `MixModel.v`), on arrays of two different dtypes and with `skip_input_checks=True` (`VecModel.v`) | integer arrays with integer parameters beyond the dtype, or with non-integer alpha; `skip_input_checks=True` on arrays that are not 1-D |
| utils.py | ensure_ndarray_*, check_input_arrays, contains_nan_inf, min_max_scale, check_callable, get_callable_name | - |
| sampling.py | all, with its warnings (`OpWarnModel.v`) | text of warnings |
| ranking.py | all, with GridSearchCV's scores as a parameter | printing |
| algorithms.py | fit, predict, get_params, set_params of the four estimators | `_more_tags`, docstrings; sklearn's `check_X_y`, `check_array`, `SVC`, `SVR` are parameters with the stated hypotheses |
| config.py | default parameter values and ranges used by the above | other constants |
| \_\_init\_\_.py, \_version.py, import statements of all files | `import`, `from ... import`, attributes of the package, `__all__`, `__getattr__` (`ImportModel.v`) | evaluation of the definitions (does not raise); value of `__version__`; the test files; `reload`, deleting or assigning attributes of modules |

Further simplifications: emission of warnings has no effect, except where forming the message can raise (which warnings a KernelMatrix issues is C97, which ones the operations and buckets issue is C98; filters that turn the warnings of a KernelMatrix into exceptions are C106, those that do so with the warnings of operations and buckets C110; the two kinds are not combined in one model, and filters that drop repeated warnings are not modelled); numpy dtype
promotion only as far as stated in `UtilsModel.v`; the caller's mutation of shared arrays is considered in
C78, C79, C113 and C114 only; `copy.deepcopy` produces an equal object; scipy's `pearsonr` is its definition on finite arrays and a
parameter otherwise; a symmetric eigensolver returns the eigenvalues (hypothesis of C26, C74; of C92 up to an error); fused multiply-add is not
modelled in C76, C77, C86, C88, C89, C90, C91, C92, C93. All but C101 and C108 is about one thread running to the end of
each call. In C101 (`ThreadModel.v`) threads index, read the diagonal and `.full` of an attached KernelMatrix; one
read or write of an attribute, a dict entry or an array entry is atomic, `+=` is two steps, an interrupted thread is
one that the schedule never picks again; `attach_to`, the sparse accesses and kernels whose values do not format are
left out there. C108 (`ThreadDerivedModel.v`) adds `normed_km`, `centered`, `frob_norm` and `full` of a normalised object; a
function of operations.py reads each entry of the array once. Performance and memory use are not considered.

## 5. Assumptions

Output of `Print Assumptions` for the theorems of `Prop_*.v`, grouped (`tools/axioms.py`; examples are not listed). All these axioms belong to
the standard library: `sig_forall_dec`, `sig_not_dec` and functional extensionality come with its real numbers,
`classic` with some of its lemmas on them.

* **closed under the global context** (262 theorems):
  C01_getitem_values, C01_symmetric_kernel, C02_one_sample_bound, C02_pairs_once, C02_two_samples_bound,
  C02_two_samples_partial, C04_contents_partial, C04_exact, C04_full_partial, C05_elements_symmetric, C05_exact,
  C05_full_symmetric, C06_fresh_slate, C06_steady, C07_after_full, C07_features_rejected, C07_rejected_first_partial,
  C07_rejection_is_ValueError, C07_second_rejected, C07_sizes_kept, C08_exact, C08_exact_dense,
  C08_true_or_nan_partial, C08_uninterrupted, C09_invalid_rejected, C09_selection_exists, C09_valid_accepted,
  C101_alone, C101_alone_example, C101_answers, C101_attached, C101_blank_refuted, C101_counter_refuted,
  C101_evaluations, C101_example, C101_finishes, C101_full_refuted, C101_quiet, C101_results, C101_single, C101_upper,
  C102_count, C102_each_pair_once, C102_nothing_more, C103_contains, C103_deterministic, C103_loop,
  C103_other_classes, C103_set_loop, C103_truth, C104_combination_rejects, C104_infinite_norm,
  C104_infinite_normalize, C104_isclose, C104_nan_alignment, C104_nan_combination, C104_nan_dense, C104_nan_matrix,
  C104_nan_normalize, C104_nan_psd, C104_normalize2_rejects, C104_normalize_rejects, C104_sparse_refuted,
  C104_square_only, C105_aliases, C105_all, C105_estimators, C105_example, C105_history_free, C105_import, C105_names,
  C105_star, C105_submodules, C105_unknown, C106_forever, C106_full, C106_lenient, C106_lifted, C106_parts,
  C106_same_state_refuted, C106_warning, C106_whole, C108_after, C108_alone, C108_cold_refuted, C108_example,
  C108_single, C108_stale, C109_diagonal, C109_diagonal_refuted, C109_example, C109_normalisation, C109_once,
  C109_parts, C109_same, C10_increasing_partial, C110_prefix, C110_stops, C118_kernel, C11_flat_is_row_major,
  C11_flat_out_of_range, C11_flat_value, C12_attach_evaluates_nothing, C12_exact, C12_exact_example,
  C12_nothing_after_full_partial, C12_only_requested, C13_diagonal_total, C13_diagonal_two_samples,
  C13_diagonal_values, C14_centered_partial, C14_two_samples, C15_attributes, C16_shapes_of_matrices, C16_sizes,
  C17_exact, C17_no_exception_partial, C35_1D, C35_2D, C35_conversion, C35_dtypes, C35_operation,
  C35_operation_example, C36_constructor, C36_not_a_set, C39_members_size_compatible, C39_same_size_samples,
  C39_shared_members_refuted, C40_append, C40_append_array, C40_append_mismatch, C40_append_raises, C40_extend,
  C40_extend_mismatch, C40_extend_raises, C40_extend_refuted, C41_getitem, C41_iter, C41_take, C41_take_out_of_range,
  C41_take_selects, C42_attach_subset_refuted, C42_disjoint, C42_exact, C42_exact_example, C42_partial,
  C43_atomic_refuted, C43_attach, C43_precomputed, C43_succeeds, C43_wrong_sample, C44_attr_value, C44_exact,
  C44_exact_example, C44_get_attr, C44_length_one_refuted, C44_precomputed_refuted, C44_scalar, C44_sequence_partial,
  C44_wrong_length, C45_array, C45_array_bad_slice, C45_array_entries, C45_array_example, C45_array_number,
  C45_array_shapes, C45_list, C45_ndarray_refuted, C45_one_matrix_partial, C45_other_types, C46_not_2D,
  C47_empty_refuted, C47_full_diag, C47_getitem, C47_invalid_partial, C47_unreadable_refuted, C49_attached,
  C49_partial, C49_refused, C58_optimal_example, C58_optimal_settings, C61_exact, C61_steady, C65_after_attach,
  C65_ordinary_members, C67_full_repeatable, C75_exceptions, C75_no_calls, C75_num_samples, C75_rejected, C75_reports,
  C76_platform_example, C76_range, C76_symmetric, C76_unit_diagonal, C77_not_exact, C77_unit_diagonal,
  C78_diagonal_partial, C78_indexing_partial, C78_pairs_once, C78_refuted, C78_write_persists, C79_after_full_partial,
  C79_before, C79_exact, C79_exact_two, C79_refuted, C79_two_samples_refuted, C80_accepted_refuted, C80_call,
  C80_constructor, C80_kernel_matrix, C80_name_refuted, C80_named, C80_ordinary_partial, C80_rejected_refuted,
  C81_attached, C81_format, C81_raises, C81_refuted, C81_set, C81_stale_refuted, C81_str_partial, C81_unattached,
  C84_safe, C85_one_case, C85_reference, C87_common_type, C89_errors, C89_nan, C90_symmetric, C90_weights, C91_error,
  C91_error_second, C92_error, C92_total, C93_frob_sparse_refuted, C94_asymmetric_refuted, C94_full, C94_transpose,
  C97_callable_refuted, C97_exact, C97_interrupted_refuted, C97_normalisation, C97_once, C97_part_refuted,
  C97_recorded, C97_silent, C98_added_or_warned, C98_no_values, C98_warned_exact, C99_callable, C99_callable_refuted,
  C99_classes, C99_constructed, C99_constructor, C99_example, C99_matrices, C99_name, C99_readable, C99_same, C99_sets
* `ClassicalDedekindReals.sig_forall_dec`, `FunctionalExtensionality.functional_extensionality_dep` (121 theorems):
  C109_int, C110_psd, C110_psd_true, C111_center, C111_match, C111_match_equal, C111_match_feature,
  C111_match_refuted, C112_strategies, C113_bad_index, C113_diag, C113_example, C113_full_first, C113_full_unread,
  C113_item, C113_negative, C113_reads, C113_refuted, C113_write, C113_write_beyond, C114_example, C114_full,
  C114_init, C114_list, C114_reads, C114_refuted, C114_row_example, C114_same, C114_size, C118_asymmetric_refuted,
  C18_entries, C18_idempotent, C18_psd, C18_rejects, C18_shift, C18_sums_zero, C18_symmetric, C22_bilinear,
  C22_shapes, C22_sparse, C22_symmetric, C25_exact_example, C25_member_failure, C25_normalised, C25_psd,
  C25_raises_exact, C25_value_exact, C25_weighted_sum, C25_wrong_count, C25_zero_sum, C26_decides, C26_exact,
  C26_solver_failure, C26_total, C27_categorical, C31_constructor, C33_count, C33_empty, C33_fraction, C33_psd,
  C33_range, C33_rejects, C34_gamma_bounds, C46_not_square_partial, C46_observers, C46_observers_any, C46_one_row,
  C46_one_row_refuted, C46_square_partial, C51_psd, C51_value, C52_learner, C52_other, C52_range, C52_value, C83_psd,
  C83_set_refused, C86_linear, C86_linear_exact, C86_linear_psd, C86_polynomial, C88_center, C88_center_psd,
  C88_center_rows, C88_center_symmetric_partial, C88_center_symmetric_refuted, C88_example, C88_frobenius,
  C88_linear_combination, C88_weighted_mean, C89_best_refuted, C89_chosen, C89_close_refuted, C89_constant,
  C89_example, C89_scaled, C89_scores, C90_average, C90_average_refuted, C90_example, C90_order, C90_product,
  C90_product_refuted, C90_sum, C90_sum_order_refuted, C90_unit_range, C90_weighted, C91_close, C91_symmetric_refuted,
  C92_false, C92_true, C93_centered, C93_centered_close, C93_centered_linear, C93_example, C93_sparse_norm,
  C95_match_groups, C95_match_order, C98_psd_exact, C98_psd_outcome, C98_psd_true
* `ClassicalDedekindReals.sig_forall_dec`, `ClassicalDedekindReals.sig_not_dec`,
  `FunctionalExtensionality.functional_extensionality_dep` (204 theorems):
  C03_error, C03_one_sample, C03_refuted_callable, C03_two_samples_exact, C03_two_samples_partial, C03_value,
  C100_distance, C102_fit, C102_free, C102_optimal_predict, C102_predict, C102_search, C102_set_again,
  C102_set_functions, C107_any, C107_matrix, C107_negative, C107_psd, C107_symmetric, C107_value, C110_alignment,
  C110_alignment_value, C110_pairwise, C110_rank_any, C110_ranking, C111_average, C111_match_matrix, C111_normalise,
  C111_product, C111_sum, C111_weighted, C115_average, C115_average_is_sum, C115_product, C115_sum, C115_sum_default,
  C115_take, C115_weighted, C115_weighted_is_sum, C116_classes, C116_cv_affine, C116_cv_order, C116_norm,
  C116_optimal, C116_order, C116_refuted, C116_sign, C116_targets, C118_composites, C118_operations, C118_ranking,
  C14_exact, C17_refuted, C19_entries, C19_idempotent, C19_psd, C19_scale_invariant, C19_symmetric, C19_unit_diagonal,
  C20_negative_diagonal, C20_nonsquare, C20_norm_error_iff, C20_other_method, C20_otherwise_succeeds,
  C21_agrees_with_one_sample, C21_entries, C21_failures, C22_cauchy_schwarz, C22_norm_definite, C22_refuted_sparse,
  C22_values, C23_determined, C23_exact, C23_psd, C23_range, C23_scale, C23_self, C23_shift, C23_symmetric, C23_value,
  C24_already_centered, C24_rejects, C24_vanishing, C36_average, C36_kernels_average, C36_kernels_product,
  C36_kernels_sum, C36_product_exact, C36_product_first_sparse, C36_product_matrices, C36_product_partial,
  C36_sum_default, C36_sum_weights, C36_sum_wrong_weights, C36_two_samples_fit_raises, C36_unfitted,
  C36_weighted_partial, C36_weighted_sum, C37_average, C37_product_partial, C37_sum, C37_weighted,
  C38_later_members_ignored, C38_partial, C50_align, C50_corr, C50_corr_exact, C50_partial, C50_raises, C50_unknown,
  C52_cv, C52_cv_errors, C53_align_partial, C53_bad_sample, C53_best, C53_cv_partial, C53_refuses, C54_exact,
  C54_exact_example, C54_nan, C54_partial, C54_value, C56_fit, C56_fit_predict, C56_predict, C56_training_data,
  C57_repeatable, C58_no_change, C58_round_trip, C59_partial, C59_uses_new_kernel, C60_predict, C61_frob_partial,
  C61_value_partial, C62_nan_kernel_value, C62_nan_poisons, C66_average, C66_cases, C66_partial, C66_product, C66_sum,
  C66_sum_weights, C66_weighted, C67_full_undisturbed, C68_otherwise, C68_value, C69_causes, C69_exact, C69_mixed,
  C69_partial, C72_partial, C72_svr, C73_predict, C74_error, C74_exact, C74_example_false, C74_false, C74_match_count,
  C74_raises, C77_diagonal, C77_error, C77_example, C77_symmetric, C82_empty_refuted, C82_format, C82_kernels,
  C82_member_raises, C82_normalised, C82_psd, C82_scalar_weights, C82_sum, C82_sum_kernel, C82_wrong_count,
  C82_zero_sum, C83_full, C83_no_features, C83_normalised, C83_normalised_two, C83_two_samples, C88_alignment,
  C88_alignment_range, C88_alignment_self, C88_frobenius_norm, C88_zero_norm_refuted, C90_psd, C91_example,
  C91_linear, C91_linear_two, C91_one_sample, C91_two_samples, C91_unit, C91_unit_two, C92_is_psd_linear,
  C92_rounding_refuted, C93_frob, C93_frob_positive, C94_alignment, C94_centered, C94_frob_norm, C94_normalized,
  C94_normalized_nan_refuted, C94_ranking, C98_alignment_exact, C98_alignment_outcome
* `ClassicalDedekindReals.sig_forall_dec`, `ClassicalDedekindReals.sig_not_dec`, `Classical_Prop.classic`,
  `FunctionalExtensionality.functional_extensionality_dep` (232 theorems):
  C02_two_samples_refuted, C02_unbounded_refuted, C03_refuted_two_samples, C04_refuted_full_sparse,
  C04_refuted_whole_index, C05_full_refuted, C06_builtin, C07_refuted, C08_refuted, C08_refuted_sparse,
  C100_bandwidth, C100_chi2_one, C100_chi2_order, C100_cosine, C100_example, C100_gamma, C100_gaussian,
  C100_gaussian_order, C100_inner, C100_laplacian, C100_laplacian_one, C100_laplacian_order, C100_linear, C100_matrix,
  C102_machine_example, C102_optimal_example, C102_optimal_fit, C102_set_example, C107_bound, C107_laplacian_refuted,
  C107_poly, C107_psd_refuted, C10_refuted_order, C10_refuted_repetition, C110_bucket, C110_example, C110_make,
  C110_new_frame, C110_unchanged_refuted, C111_chi2, C111_chi2_matrix, C111_example, C111_hadamard,
  C111_hadamard_exact, C111_hadamard_exact_example, C111_hadamard_line, C111_hadamard_only, C111_hadamard_refuted,
  C111_linear, C111_linear_example, C111_matrix, C111_matrix_example, C111_poly, C111_poly_exact, C111_poly_example,
  C111_poly_line, C111_poly_many, C112_bucket, C112_bucket_refuted, C112_exact, C112_example, C112_floats,
  C112_integers, C112_matrix, C112_symmetric, C112_value, C115_product_refuted, C117_selection, C117_take,
  C118_similarity, C12_refuted, C14_refuted, C27_numeric, C28_linear, C28_linear_value, C28_poly, C28_poly_value,
  C28_refuted_negative_b, C29_gaussian, C29_gaussian_one_iff, C29_gaussian_range, C29_laplacian, C29_laplacian_value,
  C30_negative_iff, C30_psd, C30_range, C30_value, C31_finite, C31_negative_alpha_nan, C31_psd, C31_value, C32_range,
  C32_refuted_psd, C34_bandwidth, C34_clamped, C34_large, C34_nan, C34_zero, C35_integers, C35_lengths,
  C36_product_refuted, C36_two_samples_refuted, C36_weighted_refuted, C37_product_refuted, C38_refuted, C48_bad_flags,
  C48_bad_values, C48_contents, C48_exhaustive, C48_light, C48_linear_only, C48_other_strategies, C49_refuted,
  C50_refuted, C53_refuted, C55_align, C55_align_error, C55_example, C55_partial, C55_refuted, C56_default_kernel,
  C56_example, C57_before_fit, C57_builtin, C57_example, C57_optimal_before_fit, C57_optimal_example,
  C57_optimal_repeatable, C58_example, C58_optimal_get, C58_optimal_round_trip, C59_optimal, C59_refuted,
  C60_attached, C60_example, C60_fit, C60_programs, C60_refit_partial, C60_refuted, C61_refuted, C63_chi2_total,
  C63_rows_are_calls, C63_total, C64_gaussian, C64_normalised_psd, C66_example, C66_refuted, C69_exact_example,
  C69_refuted, C69_refuted_first, C70_default_kernel, C70_refuted, C71_bucket, C71_exact, C71_example,
  C71_norm_refuted, C71_partial, C71_refuted, C71_zero_row, C72_refuted, C73_example, C73_fit_predict, C74_builtin,
  C74_example, C74_refuted, C74_sigmoid, C74_true, C82_stale_refuted, C84_exact, C84_linear, C84_matrix,
  C84_overflow_refuted, C84_psd_refuted, C84_symmetric, C84_unsigned_refuted, C86_chi2, C86_chi2_psd, C86_gaussian,
  C86_gaussian_psd, C86_hadamard, C86_hadamard_psd, C86_laplacian, C86_laplacian_psd, C86_platform_example,
  C86_powers_example, C86_sigmoid, C87_bool, C87_bool_hadamard, C87_bool_matrix_refuted, C87_bool_promoted,
  C87_bool_refuted, C87_bool_unvalidated, C87_chi2_refuted, C87_errors, C87_exact, C87_lengths, C87_lengths_refuted,
  C87_matrix, C87_refused_attach_refuted, C87_symmetric, C92_example, C92_is_psd, C94_builtin_symmetric,
  C95_common_feature, C95_common_zero, C95_common_zero_refuted, C95_groups_product, C95_groups_sum,
  C95_hadamard_exact, C95_hadamard_example, C95_linear, C95_matrix, C95_order, C95_rows, C95_scaling_chi2,
  C95_scaling_gaussian, C95_scaling_hadamard, C95_scaling_laplacian, C95_scaling_poly, C95_scaling_sigmoid, C95_signs,
  C95_translation, C96_causes, C96_exact, C96_example, C96_predictions, C96_programs, C96_unchanged_refuted,
  C98_bucket_outcome, C98_example, C98_make, C98_new
