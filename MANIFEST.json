{
 "claims": [
  {
   "property": "C01",
   "status": "proved",
   "theorems": [
    "C01_vector_refines_list"
   ],
   "note": "Refinement to lists over all histories of 16 operations on any number of vectors. Resize is specified for n>=1 (see C05); PushBackOf/AssignRange for distinct vectors (see C03)."
  },
  {
   "property": "C02",
   "status": "proved",
   "theorems": [
    "C02_vector_memory_discipline"
   ],
   "note": "Same histories as C01; live arrays are exactly those owned, no fault, no leak."
  },
  {
   "property": "C03",
   "status": "partial",
   "theorems": [
    "C03_push_back_own_element_partial",
    "C03_push_back_own_element_always_faults_when_full",
    "C03_push_back_own_element_refuted"
   ],
   "note": "Holds with spare capacity; false of the code when the vector is full (use after free), for every full vector."
  },
  {
   "property": "C04",
   "status": "partial",
   "theorems": [
    "C04_erase_partial",
    "C04_erase_returns_successor_refuted"
   ],
   "note": "Content part proved; the returned iterator is always the new end, so the returned-iterator part is refuted."
  },
  {
   "property": "C05",
   "status": "partial",
   "theorems": [
    "C05_resize_partial",
    "C05_resize_zero_refuted",
    "C05_resize_value_initialises_refuted"
   ],
   "note": "Proved for n>=1; resize(0) is a no-op in the code, refuted."
  },
  {
   "property": "C06",
   "status": "proved",
   "theorems": [
    "C06_push_back_amortised",
    "C06_capacity_monotone",
    "C06_size_le_capacity"
   ],
   "note": ""
  },
  {
   "property": "C07",
   "status": "proved",
   "theorems": [
    "C07_copies_are_independent",
    "C07_self_assignment",
    "C02_vector_memory_discipline"
   ],
   "note": ""
  },
  {
   "property": "C08",
   "status": "proved",
   "theorems": [
    "C08_string_refines_text",
    "C08_count_constructor_unterminated",
    "C08_count_constructor_refuted",
    "C08_range_constructor"
   ],
   "note": "All histories of the listed operations plus c_str construction, erase, element write, comparisons. Beyond the statement: the (s,count)/(first,last) constructors break the invariant (refuted)."
  },
  {
   "property": "C09",
   "status": "proved",
   "theorems": [
    "C09_concatenation_laws"
   ],
   "note": ""
  },
  {
   "property": "C10",
   "status": "proved",
   "theorems": [
    "C10_compare_is_lexicographic",
    "C10_strict_total_order"
   ],
   "note": ""
  },
  {
   "property": "C11",
   "status": "partial",
   "theorems": [
    "C11_self_append_always_wrong",
    "C11_self_append_refuted",
    "C11_empty_is_always_false",
    "C11_empty_refuted"
   ],
   "note": "Both halves are false of the code; exact behaviour proved for every string, refutations with witnesses."
  },
  {
   "property": "C12",
   "status": "partial",
   "theorems": [
    "C12_to_string_int_partial",
    "C12_to_string_int_overrun",
    "C12_to_string_int_refuted",
    "C12_decimal_text_unique",
    "C12_decimal_text_injective",
    "C12_to_string_int_injective"
   ],
   "note": "Proved above -10^9; from -10^9 down the code overruns its buffer for every value (proved)."
  },
  {
   "property": "C13",
   "status": "partial",
   "theorems": [
    "C13_to_string_int64_partial",
    "C13_to_string_int64_always_wrong_outside_int",
    "C13_to_string_int64_refuted"
   ],
   "note": "Proved within the range of int; outside it the text is wrong for every value (proved)."
  },
  {
   "property": "C14",
   "status": "proved",
   "theorems": [
    "C14_map_refines_dictionary",
    "C14_dictionary_laws"
   ],
   "note": "All histories over any number of maps, any key order, any priority stream."
  },
  {
   "property": "C15",
   "status": "partial",
   "theorems": [
    "C15_iteration_partial",
    "C15_iteration_from_key",
    "C15_full_iteration_refuted"
   ],
   "note": "begin() is the root: iteration visits exactly the keys from the root key on, ascending; complete iteration is refuted with the real priorities. ++ itself is proved to be the in-order successor."
  },
  {
   "property": "C16",
   "status": "proved",
   "theorems": [
    "C16_tree_invariants",
    "C16_no_leak",
    "C16_results_independent_of_priorities"
   ],
   "note": ""
  },
  {
   "property": "C37",
   "status": "proved",
   "theorems": [
    "C37_step_is_bijection",
    "C37_full_period",
    "C37_priorities_never_degenerate"
   ],
   "note": "Stronger than stated: single cycle of length 2^32-1."
  },
  {
   "property": "C41",
   "status": "partial",
   "theorems": [
    "C41_iterator_equality_with_end_faults",
    "C41_iterator_equality_refuted",
    "C41_same_map_partial",
    "C41_value_comparison_refuted"
   ],
   "note": "!= against end() proved, == against end() dereferences null for every non-end iterator. Two iterators to entries of one map compare as positions if == of the values is reflexive; for a value unequal to itself it == it is false."
  },
  {
   "property": "C42",
   "status": "partial",
   "theorems": [
    "C42_copied_map_double_frees",
    "C42_map_copies_independent_refuted"
   ],
   "note": "False of the code for every non-empty map (shallow copy)."
  },
  {
   "property": "C17",
   "status": "proved",
   "theorems": [
    "C17_min_max",
    "C17_max_element",
    "C17_fill"
   ],
   "note": ""
  },
  {
   "property": "C18",
   "status": "proved",
   "theorems": [
    "C18_memcpy",
    "C18_memcpy_forward_overlap"
   ],
   "note": "Plus the exact result when the destination lies inside the source."
  },
  {
   "property": "C19",
   "status": "proved",
   "theorems": [
    "C19_ratio_lowest_terms",
    "C19_ratio_idempotent",
    "C19_lcm"
   ],
   "note": ""
  },
  {
   "property": "C39",
   "status": "proved",
   "theorems": [
    "C39_pair_order"
   ],
   "note": ""
  },
  {
   "property": "C20",
   "status": "proved",
   "theorems": [
    "C20_siphash_64",
    "C20_siphash_128"
   ],
   "note": ""
  },
  {
   "property": "C21",
   "status": "proved",
   "theorems": [
    "C21_integer_hash",
    "C21_float_hash"
   ],
   "note": ""
  },
  {
   "property": "C24",
   "status": "proved",
   "theorems": [
    "C24_classification"
   ],
   "note": ""
  },
  {
   "property": "C25",
   "status": "partial",
   "theorems": [
    "C25_copysign",
    "C25_fabs_partial",
    "C25_fabs_clears_sign_refuted",
    "C25_fmin_fmax",
    "C25_clamp",
    "C25_fle_meaning",
    "C25_bit_casts"
   ],
   "note": "Everything holds except that fabs(-0.0) keeps its sign bit."
  },
  {
   "property": "C26",
   "status": "partial",
   "theorems": [
    "C26_ceil_partial",
    "C26_floor_partial",
    "C26_ceil_refuted",
    "C26_floor_refuted",
    "C26_sqrt_partial",
    "C26_sqrt_inf_refuted"
   ],
   "note": "Exact domain of ceil and floor; false near zero and beyond int; sqrt(+inf) = -inf."
  },
  {
   "property": "C22",
   "status": "proved",
   "theorems": [
    "C22_every_operation",
    "C22_exactly_once",
    "C22_no_leak"
   ],
   "note": "unique_ptr::swap relies on the contract of the undefined generic swap."
  },
  {
   "property": "C23",
   "status": "partial",
   "theorems": [
    "C23_stream_partial",
    "C23_ostream_string_refuted"
   ],
   "note": "Integers limited to the range where to_string is right; ostream << string recurses forever (refuted)."
  },
  {
   "property": "C36",
   "status": "partial",
   "theorems": [
    "C36_no_thread_ever_runs",
    "C36_join_waits_partial",
    "C36_thread_refuted"
   ],
   "note": "False of the code: no function is ever run; exact behaviour proved for all histories and schedules."
  },
  {
   "property": "C38",
   "status": "proved",
   "theorems": [
    "C38_integer_limits",
    "C38_float_limits",
    "C38_special_values",
    "C38_digits10"
   ],
   "note": "lowest() does not exist in the code."
  },
  {
   "property": "C40",
   "status": "proved",
   "theorems": [
    "C40_valarray_refines_list"
   ],
   "note": "For any elementwise function in place of sin; valarray::resize(0) has the defect of C05."
  },
  {
   "property": "C34",
   "status": "proved",
   "theorems": [
    "C34_logarithms",
    "C34_decimal_lengths",
    "C34_divisibility",
    "C34_wide_arithmetic",
    "C34_platform_variants_agree"
   ],
   "note": "Full ranges of the assertions / full 32- and 64-bit argument ranges."
  },
  {
   "property": "C35",
   "status": "proved",
   "theorems": [
    "C35_pow5_table",
    "C35_pow5_inverse_table"
   ],
   "note": "All 326 + 342 entries."
  },
  {
   "property": "C27",
   "status": "proved",
   "theorems": [
    "C27_to_string_float_shortest"
   ],
   "note": "All 2^32 patterns; the specification is Flocq rounding to nearest even and scientific notation defined independently of the code."
  },
  {
   "property": "C28",
   "status": "proved",
   "theorems": [
    "C28_to_string_double_shortest"
   ],
   "note": "All 2^64 patterns."
  },
  {
   "property": "C29",
   "status": "proved",
   "theorems": [
    "C29_formatting_fits",
    "C29_sizes_tight"
   ],
   "note": "Any initial buffer contents; one byte less is not enough."
  },
  {
   "property": "C30",
   "status": "proved",
   "theorems": [
    "C30_parse_double_nearest"
   ],
   "note": "Numerals as an independent syntax (sign, digits, fraction, exponent), nearest by Flocq rounding; any bytes may follow the text."
  },
  {
   "property": "C31",
   "status": "proved",
   "theorems": [
    "C31_rejects",
    "C31_unbounded_length_refuted",
    "C31_stod"
   ],
   "note": "Both parsers; the length bound is shown necessary: with INT_MAX characters the exponent overflows an int."
  },
  {
   "property": "C32",
   "status": "proved",
   "theorems": [
    "C32_parse_float_nearest"
   ],
   "note": "As C30 with 9 digits."
  },
  {
   "property": "C33",
   "status": "proved",
   "theorems": [
    "C33_round_trip",
    "C33_stod_refuted"
   ],
   "note": "All finite patterns, both formats, through s2f_n / s2d_n; stod returns float so the round trip through it is refuted."
  },
  {
   "property": "C43",
   "status": "proved",
   "theorems": [
    "C43_exp2_accuracy",
    "C43_exp_accuracy",
    "C43_exp_saturates",
    "C43_exp_total",
    "C43_exp_special_refuted"
   ],
   "note": "Relative error against the real exponential; the C values at infinities and NaN are refuted."
  },
  {
   "property": "C44",
   "status": "proved",
   "theorems": [
    "C44_log2_accuracy",
    "C44_log_accuracy",
    "C44_log10_accuracy",
    "C44_log_exact",
    "C44_log2_subnormal_refuted",
    "C44_log_special_refuted"
   ],
   "note": "Absolute error against the real logarithm for every positive normal float; false for subnormals (refuted)."
  },
  {
   "property": "C45",
   "status": "proved",
   "theorems": [
    "C45_sin_accuracy",
    "C45_cos_accuracy",
    "C45_sin_cos_range",
    "C45_sin_cos_undefined",
    "C45_sin_documented_error_refuted",
    "C45_sin_large_refuted"
   ],
   "note": "Absolute error for |x| <= 25732, range for all finite x up to 2^31 pi; the error documented in the source is refuted."
  },
  {
   "property": "C46",
   "status": "proved",
   "theorems": [
    "C46_tan_accuracy",
    "C46_tan_undefined",
    "C46_tan_large_refuted"
   ],
   "note": "Error relative to 1 + tan^2 where |cos x| >= 1e-6."
  },
  {
   "property": "C47",
   "status": "proved",
   "theorems": [
    "C47_sinh_accuracy",
    "C47_cosh_accuracy",
    "C47_tanh_accuracy",
    "C47_saturation",
    "C47_special_refuted",
    "C47_sinh_relative_refuted"
   ],
   "note": "The C results at infinities and NaN and a small relative error of sinh near 0 are refuted."
  },
  {
   "property": "C48",
   "status": "proved",
   "theorems": [
    "C48_sqrt_accuracy",
    "C48_sqrt_exact_refuted",
    "C48_sqrt_subnormal_refuted"
   ],
   "note": "Every positive normal float; exactness and subnormal inputs are refuted."
  },
  {
   "property": "C49",
   "status": "proved",
   "theorems": [
    "C49_cbrt_accuracy",
    "C49_cbrt_tiny",
    "C49_cbrt_documented_refuted",
    "C49_cbrt_special_refuted"
   ],
   "note": "All finite floats; the documented error and cbrt(inf) = inf are refuted."
  },
  {
   "property": "C50",
   "status": "proved",
   "theorems": [
    "C50_erf_accuracy",
    "C50_erfc_accuracy",
    "C50_special",
    "C50_erfc_relative_refuted"
   ],
   "note": "Against 2/sqrt(pi) times the integral of exp(-t^2); a small relative error of erfc is refuted."
  },
  {
   "property": "C51",
   "status": "proved",
   "theorems": [
    "C51_pow_accuracy",
    "C51_pow_saturates",
    "C51_pow_exact",
    "C51_pow_negative",
    "C51_pow_total",
    "C51_pow_tiny_base_refuted"
   ],
   "note": "Relative error for |y| <= 1000; pow(tiny, negative) being 0 is shown as a counterexample to the C result."
  },
  {
   "property": "C52",
   "status": "proved",
   "theorems": [
    "C52_ierf_accuracy",
    "C52_round_trip",
    "C52_ierf_outside",
    "C52_special",
    "C52_ierf_odd",
    "C52_ierf_float_accuracy_refuted"
   ],
   "note": "The error of the tail comes from the approximate sqrt; that it exceeds 2e-5 is shown by a counterexample."
  },
  {
   "property": "C53",
   "status": "proved",
   "theorems": [
    "C53_lifetimes",
    "C53_no_leak",
    "C53_refines",
    "C53_each_call",
    "C53_promised",
    "C53_copy_assign_throw_refuted",
    "C53_emplace_own_value_refuted",
    "C53_comparisons"
   ],
   "note": "Element operations may throw at any time (oracle). Two facts that a user may expect and that fail are shown as counterexamples."
  },
  {
   "property": "C54",
   "status": "proved",
   "theorems": [
    "C54_lifetimes",
    "C54_refines",
    "C54_each_call",
    "C54_promised",
    "C54_strong_guarantee",
    "C54_equality",
    "C54_throwing_move_refuted",
    "C54_value_ctor_throw_refuted"
   ],
   "note": "Assumes noexcept moves, as the statement says; without them lifetimes are refuted. Relational operators other than == and != are compiled out by default and not modelled."
  },
  {
   "property": "C55",
   "status": "partial",
   "theorems": [
    "C55_lifetimes_partial",
    "C55_each_call_partial",
    "C55_leak_refuted",
    "C55_overwrite_refuted"
   ],
   "note": "Proved for programs that assign and swap only between two successes or two errors; the rest is false (leak and construction over a live error)."
  },
  {
   "property": "C56",
   "status": "proved",
   "theorems": [
    "C56_lifetimes",
    "C56_refines",
    "C56_each_call",
    "C56_promised",
    "C56_visit",
    "C56_comparisons",
    "C56_visit_copies_refuted",
    "C56_copy_assign_loses_value_refuted",
    "C56_move_assign_terminates_refuted"
   ],
   "note": "std::terminate is possible only at the calls of may_terminate. hash<variant> does not compile and is left out."
  },
  {
   "property": "C57",
   "status": "partial",
   "theorems": [
    "C57_atomic_ops_partial",
    "C57_tickets",
    "C57_store_refuted",
    "C57_swap_refuted",
    "C57_cas_refuted"
   ],
   "note": "Everything but store, swap and compare_and_swap with the GCC builtins, which are false as stated."
  },
  {
   "property": "C58",
   "status": "partial",
   "theorems": [
    "C58_fifo_partial",
    "C58_nonblocking_partial",
    "C58_no_race_partial",
    "C58_consume_empty_refuted",
    "C58_produce_full_refuted",
    "C58_produce_timeout_refuted",
    "C58_consume_timeout_refuted",
    "C58_init_refuted",
    "C58_wraparound_refuted",
    "C58_waiting_partial",
    "C58_handover_partial"
   ],
   "note": "Executions in which no call waits, or in which every wait consumes a signal that is not stale; other waits are refuted."
  },
  {
   "property": "C59",
   "status": "proved",
   "theorems": [
    "C59_mutual_exclusion",
    "C59_one_wait_per_raise",
    "C59_signal_kept",
    "C59_no_lost_wakeup",
    "C59_single_waiter",
    "C59_timed_waiters_refuted",
    "C59_deadline"
   ],
   "note": "The last sentence of the claim about wakeups, that the proviso is needed, is C59_timed_waiters_refuted."
  },
  {
   "property": "C60",
   "status": "proved",
   "theorems": [
    "C60_lifetimes",
    "C60_no_leak",
    "C60_refines",
    "C60_each_call",
    "C60_promised",
    "C60_value_throw_refuted"
   ],
   "note": "The last sentence of the claim: C60_value_throw_refuted."
  },
  {
   "property": "C61",
   "status": "proved",
   "theorems": [
    "C61_eight_digits",
    "C61_words"
   ],
   "note": ""
  },
  {
   "property": "C62",
   "status": "proved",
   "theorems": [
    "C62_power_of_five_table"
   ],
   "note": ""
  },
  {
   "property": "C63",
   "status": "proved",
   "theorems": [
    "C63_compute_float",
    "C63_compute_error"
   ],
   "note": ""
  },
  {
   "property": "C64",
   "status": "proved",
   "theorems": [
    "C64_arithmetic",
    "C64_top_bits"
   ],
   "note": ""
  },
  {
   "property": "C65",
   "status": "proved",
   "theorems": [
    "C65_scan"
   ],
   "note": "Exponents of 0x10000000 and more are capped by the code; the theorem says what remains known about them."
  },
  {
   "property": "C66",
   "status": "proved",
   "theorems": [
    "C66_digit_comp",
    "C66_fast_path"
   ],
   "note": ""
  },
  {
   "property": "C67",
   "status": "proved",
   "theorems": [
    "C67_from_chars",
    "C67_portable",
    "C67_long_text_refuted"
   ],
   "note": "C67_long_text_refuted shows that the bound on the text length is needed: a text of 2.7 GB whose value is 1 is read as 0."
  },
  {
   "property": "C68",
   "status": "proved",
   "theorems": [
    "C68_special_values"
   ],
   "note": ""
  },
  {
   "property": "C69",
   "status": "proved",
   "theorems": [
    "C69_index_sequence",
    "C69_at_index",
    "C69_is_all",
    "C69_sum_unsigned",
    "C69_sum_signed",
    "C69_sum_overflow_refuted",
    "C69_scans"
   ],
   "note": "C69_sum_overflow_refuted is the witness that the two implementations of sum differ at signed overflow."
  },
  {
   "property": "C70",
   "status": "proved",
   "theorems": [
    "C70_tuple_cat",
    "C70_get",
    "C70_comparisons",
    "C70_order"
   ],
   "note": ""
  },
  {
   "property": "C71",
   "status": "proved",
   "theorems": [
    "C71_copy_assign",
    "C71_move_assign",
    "C71_swap",
    "C71_self",
    "C71_tie_exchange_refuted"
   ],
   "note": "C71_tie_exchange_refuted shows that the aliasing condition of C71_copy_assign is needed."
  },
  {
   "property": "C72",
   "status": "proved",
   "theorems": [
    "C72_remove_cv",
    "C72_add",
    "C72_move",
    "C72_decay",
    "C72_extents"
   ],
   "note": ""
  },
  {
   "property": "C73",
   "status": "partial",
   "theorems": [
    "C73_same",
    "C73_categories_partial",
    "C73_exactly_one",
    "C73_categories_refuted",
    "C73_scalar_object",
    "C73_signed"
   ],
   "note": "The traits misclassify unions, char16_t, char32_t and decltype(nullptr): C73_categories_refuted; C73_categories_partial states what they answer for every type."
  },
  {
   "property": "C74",
   "status": "proved",
   "theorems": [
    "C74_decayed",
    "C74_single",
    "C74_arithmetic",
    "C74_values"
   ],
   "note": ""
  },
  {
   "property": "C75",
   "status": "partial",
   "theorems": [
    "C75_convertible",
    "C75_destructible",
    "C75_default_partial",
    "C75_default_refuted",
    "C75_empty_partial",
    "C75_empty_refuted"
   ],
   "note": "is_default_constructible of arrays and is_empty of unions, final and over-aligned classes are wrong: the refuted theorems give witnesses."
  },
  {
   "property": "C76",
   "status": "proved",
   "theorems": [
    "C76_storage",
    "C76_default_align",
    "C76_default"
   ],
   "note": ""
  },
  {
   "property": "C77",
   "status": "proved",
   "theorems": [
    "C77_meaning",
    "C77_laws"
   ],
   "note": ""
  },
  {
   "property": "C78",
   "status": "partial",
   "theorems": [
    "C78_atomic_ptr_partial",
    "C78_one_winner",
    "C78_store_refuted"
   ],
   "note": "Store and swap with the GCC builtins leave NULL: C78_store_refuted. The rest holds on both platforms."
  },
  {
   "property": "C79",
   "status": "partial",
   "theorems": [
    "C79_posix",
    "C79_sizes",
    "C79_small_time_t_refuted",
    "C79_windows_partial",
    "C79_windows_refuted"
   ],
   "note": "Holds on POSIX where the seconds fit time_t (always for 64 bits); refuted for 32-bit time_t and long waits, and on Windows, where C79_windows_partial bounds the loss by 99 ns."
  },
  {
   "property": "C80",
   "status": "partial",
   "theorems": [
    "C80_tls_partial",
    "C80_key_zero_refuted",
    "C80_no_memory_refuted"
   ],
   "note": "Key 0 and out-of-memory sets are refuted; everything else is C80_tls_partial."
  },
  {
   "property": "C81",
   "status": "proved",
   "theorems": [
    "C81_threads",
    "C81_example_refuted",
    "C81_portable_refuted",
    "C81_stack_refuted"
   ],
   "note": "The refuted theorems are about what the documentation promises beyond C81_threads."
  },
  {
   "property": "C82",
   "status": "proved",
   "theorems": [
    "C82_one_owner",
    "C82_operations",
    "C82_survivors",
    "C82_scope_end",
    "C82_no_leak",
    "C82_all_deleted",
    "C82_cycle_leak_refuted",
    "C82_pop_front",
    "C82_pop_front_refuted",
    "C82_pop_front_release"
   ],
   "note": "C82_operations is the exact specification of each operation (legal, doomed, after, deleter in UgStep.v). The refuted theorems are about cycles and about p = move(p->next). The stack that the recursion of destructors needs is not modelled."
  },
  {
   "property": "C83",
   "status": "proved",
   "theorems": [
    "C83_left_shift",
    "C83_right_shift",
    "C83_round",
    "C83_compute_float"
   ],
   "note": "The header is not included anywhere and does not compile: decimal, max_digits and decimal_point_range are declared nowhere, so the struct is modelled by the fields the header uses and the two constants are parameters (fast_float has 768 and 2047). The comments above the two shifts are exchanged; the theorems are about what the code does. parse_long_mantissa is not modelled: it needs parse_decimal, which the library does not have."
  },
  {
   "property": "C84",
   "status": "proved",
   "theorems": [
    "C84_parsers_agree",
    "C84_round_trip"
   ],
   "note": "s2f_n and s2d_n accept at most 9 and 17 digits, so the first theorem is about such texts; longer ones they report as an error (C31). s2f and s2d do not read inf or nan; from_chars reads what to_string prints for them."
  },
  {
   "property": "C85",
   "status": "proved",
   "theorems": [
    "C85_prints",
    "C85_other_types",
    "C85_char_refuted"
   ],
   "note": "Overload resolution is modelled for one argument by ranks (exact, promotion, conversion, pointer to bool, user-defined); arguments are not the literal 0. int from -2^31 to -10^9 and long long beyond int are wrong in to_string (C12, C13 refute them). C85_char_refuted states what a char prints."
  },
  {
   "property": "C86",
   "status": "proved",
   "theorems": [
    "C86_list_read_back"
   ],
   "note": "The loop of the client that reads (read_all) is part of the statement."
  },
  {
   "property": "C87",
   "status": "proved",
   "theorems": [
    "C87_serial",
    "C87_counter",
    "C87_life",
    "C87_recursive",
    "C87_unlocked_refuted",
    "C87_relock_refuted"
   ],
   "note": "The mutex functions are one system call each; the documented behaviour of the system is the model. Memory is sequentially consistent. The two _refuted theorems are about programs that break the discipline."
  },
  {
   "property": "C88",
   "status": "proved",
   "theorems": [
    "C88_ordered",
    "C88_unordered_refuted"
   ],
   "note": "Same model as C87."
  },
  {
   "property": "C89",
   "status": "proved",
   "theorems": [
    "C89_forward",
    "C89_explicit",
    "C89_move_if_noexcept",
    "C89_asked",
    "C89_decay_copy",
    "C89_plain"
   ],
   "note": "Deduction for T&& is modelled for expressions whose type is not void, not a reference and not a qualified function type. Conversions of the argument of forward and const rvalues as arguments of move_if_noexcept are not considered; is_constructible with the argument is an arbitrary function."
  },
  {
   "property": "C90",
   "status": "partial",
   "theorems": [
    "C90_by_value",
    "C90_reference",
    "C90_usable_partial",
    "C90_usable_refuted",
    "C90_dangling_refuted",
    "C90_array_pointer"
   ],
   "note": "Usable deleters are proved outside the two refuted cases, which are errors of the code. A default initialised deleter class counts as usable (its members may be uninitialised if it has no constructor). Conversions between different deleter classes are not considered."
  },
  {
   "property": "C91",
   "status": "proved",
   "theorems": [
    "C91_effect",
    "C91_step",
    "C91_promise",
    "C91_defined",
    "C91_shared_refuted"
   ],
   "note": "Deleters are numbers: copying, moving and assigning one is copying its state. C91_shared_refuted is about programs that share a deleter object between owners."
  },
  {
   "property": "C92",
   "status": "partial",
   "theorems": [
    "C92_called",
    "C92_other",
    "C92_class_partial",
    "C92_reference_refuted",
    "C92_unmatched",
    "C92_ellipsis_refuted"
   ],
   "note": "C92_class_partial is for classes with at most one base of each kind and an own result_type that is not a reference; for reference result types the property is false (refuted), as it is for functions with an ellipsis."
  },
  {
   "property": "C93",
   "status": "partial",
   "theorems": [
    "C93_traits",
    "C93_distance",
    "C93_list_partial",
    "C93_only_empty",
    "C93_list_refuted"
   ],
   "note": "C93_list_partial is about lists made by the private constructor; C93_list_refuted: no program makes one with elements."
  },
  {
   "property": "C94",
   "status": "proved",
   "theorems": [
    "C94_object",
    "C94_array",
    "C94_apart",
    "C94_single",
    "C94_array_single",
    "C94_refuted"
   ],
   "note": "Class hierarchies and virtual destructors are arbitrary; that accessible bases are bases and that bases of bases are bases are the only hypotheses. All types but void are complete. C94_refuted gives the conversions that compile and end in an undefined delete, as stated in the property."
  },
  {
   "property": "C95",
   "status": "proved",
   "theorems": [
    "C95_values",
    "C95_default",
    "C95_copy",
    "C95_convert_never",
    "C95_convert_enabled",
    "C95_whole",
    "C95_alloc_values",
    "C95_uses_allocator",
    "C95_alloc_never",
    "C95_dispatch",
    "C95_make_tuple",
    "C95_forward_as_tuple",
    "C95_tie",
    "C95_wrap_refuted",
    "C95_convert_refuted",
    "C95_alloc_refuted"
   ],
   "note": "Direct initialisation of classes is an arbitrary function of the type and the arguments. The _refuted theorems are witnesses of the defects the property states (against std::tuple). Overload resolution is modelled by value category, const, and template-ness of the one parameter. Not covered: braced lists, noexcept, elements that accept allocator_arg_t as a value, final empty elements (C75)."
  },
  {
   "property": "C96",
   "status": "proved",
   "theorems": [
    "C96_object",
    "C96_reference",
    "C96_copy_move",
    "C96_assignable",
    "C96_nothrow",
    "C96_array_refuted",
    "C96_reference_refuted"
   ],
   "note": "Constructors, conversions and assignments are arbitrary functions of the types. The _refuted theorems are witnesses of the exceptions the property states. Ambiguous conversions and classes without accessible destructor (other than with one argument) are not covered."
  },
  {
   "property": "C97",
   "status": "proved",
   "theorems": [
    "C97_compiles",
    "C97_trichotomy",
    "C97_same_object",
    "C97_transitive",
    "C97_nullptr",
    "C97_hash",
    "C97_hash_refuted"
   ],
   "note": "Pointers are addresses and < compares them, as on flat-memory targets; virtual bases and cv-qualified pointees are not modelled. The _refuted theorem is a witness of the exception the property states."
  },
  {
   "property": "C98",
   "status": "proved",
   "theorems": [
    "C98_swappable",
    "C98_arrays"
   ],
   "note": "Constructors, conversions, assignments and swaps of the types themselves are arbitrary functions; ambiguity between such a swap and the templates is not modelled. That the library declares its swap templates and never defines them is not visible to the trait."
  }
 ]
}
