{
 "claims": [
  {
   "property": "C01",
   "status": "proved",
   "theorems": [
    "C01_compile_accepts_exactly_the_grammar",
    "C01_grammar_unambiguous"
   ],
   "note": "grammar in GrammarSpec.v; the date pattern validator is a parameter"
  },
  {
   "property": "C02",
   "status": "partial",
   "theorems": [
    "C02_compile_total",
    "C02_compile_call_partial",
    "C02_very_long_source_refuted"
   ],
   "note": "proved for the parser; false for the whole call on sources longer than 1431655765 characters, where the capacity computation throws ArithmeticException; stack depth is C60"
  },
  {
   "property": "C03",
   "status": "proved",
   "theorems": [
    "C03_text_without_percent_prints_itself",
    "C03_doubled_percent_prints_the_text"
   ],
   "note": ""
  },
  {
   "property": "C04",
   "status": "proved",
   "theorems": [
    "C04_arguments_used",
    "C04_concatenation",
    "C04_java_arguments"
   ],
   "note": "arguments with well-formed sequences (honest); every Java value is one (C04_java_arguments)"
  },
  {
   "property": "C05",
   "status": "proved",
   "theorems": [
    "C05_too_few_arguments_fail",
    "C05_enough_arguments",
    "C05_enough_java_arguments"
   ],
   "note": ""
  },
  {
   "property": "C06",
   "status": "partial",
   "theorems": [
    "C06_all_targets_receive_the_same_text",
    "C06_wrong_announced_length_refuted",
    "C06_java_arguments",
    "C06_earlier_content_is_kept",
    "C06_arguments_are_tame"
   ],
   "note": "for arguments whose sequences announce their exact length; false otherwise"
  },
  {
   "property": "C07",
   "status": "partial",
   "theorems": [
    "C07_width_is_a_minimum",
    "C07_width_is_a_minimum_floating_partial",
    "C07_decimal_general_notation_refuted",
    "C07_width_is_a_minimum_dates_and_pointers",
    "C07_decimal_general_notation_exact"
   ],
   "note": "all integer, character and string conversions, all floating conversions of doubles, %f and %e of BigDecimal/BigInteger; false for %g of a BigDecimal whose digits were cut from a composite sequence (the excess is given exactly); %t and %p"
  },
  {
   "property": "C08",
   "status": "partial",
   "theorems": [
    "C08_justification_adds_spaces_on_one_side",
    "C08_justification_floating_partial",
    "C07_width_is_a_minimum_dates_and_pointers",
    "C08_decimal_general_notation_exact"
   ],
   "note": "same coverage as C07"
  },
  {
   "property": "C09",
   "status": "partial",
   "theorems": [
    "C09_decimal_is_C",
    "C09_decimal_reads_back",
    "C09_space_with_zero_precision_refuted",
    "C09_exact_text"
   ],
   "note": "all integers and flags; false only for '% .0d' of 0, where fast-printf prints nothing"
  },
  {
   "property": "C10",
   "status": "proved",
   "theorems": [
    "C10_unsigned_conversions_denote_the_unsigned_value",
    "C10_negative_big_integer_is_rejected"
   ],
   "note": ""
  },
  {
   "property": "C100",
   "status": "proved",
   "theorems": [
    "C100_patterns",
    "C100_values",
    "C100_operations",
    "C100_argument",
    "C100_nan"
   ],
   "note": "Connects the double arithmetic of the model (RoundM.v) and of the specification (nearest_double, widened) with SpecFloat of the standard library."
  },
  {
   "property": "C101",
   "status": "proved",
   "theorems": [
    "C101_compile_is_linear",
    "C101_factor_is_sharp",
    "C101_literal_text"
   ],
   "note": "The counting compiler of CostM.v follows Compiler.java line by line and gives the results of the compiler model."
  },
  {
   "property": "C102",
   "status": "partial",
   "theorems": [
    "C102_messages_only",
    "C102_charAt",
    "C102_subSequence",
    "C102_makers",
    "C102_forArray",
    "C102_lazy_mismatch",
    "C102_empty_refuted",
    "C102_forArray_refuted",
    "C102_slice_refuted"
   ],
   "note": "False for the empty sequence (other exception, no size), for forArray when start + length overflows (the message names another end) and for slices of composite sequences (wrong recorded length, see C19); exact in all other cases."
  },
  {
   "property": "C103",
   "status": "proved",
   "theorems": [
    "C103_concat",
    "C103_charAt",
    "C103_reading_each_is_quadratic",
    "C103_write",
    "C103_copies",
    "C103_pieces",
    "C103_weight",
    "C103_call_is_linear"
   ],
   "note": "Counted: nodes, deque operations and characters written. Not counted: the work of the JDK (digits, dates, growth of a StringBuilder) and of the number layouts. The bounds per conversion are reached except that of %a."
  },
  {
   "property": "C104",
   "status": "proved",
   "theorems": [
    "C104_interchangeable_iff",
    "C104_plainest_form",
    "C104_told_apart",
    "C104_plainest_is_least"
   ],
   "note": "Interchangeable means equal text, equal exception and equal target for every format string around the directive, every JDK meeting jdk_ok and all arguments. %g %t are not covered; %% has no directive without flags, width and precision, so its plainest form is not written."
  },
  {
   "property": "C105",
   "status": "proved",
   "theorems": [
    "C105_repaired_calls_follow_the_reference",
    "C105_the_reference_is_complete",
    "C105_repaired_calls_give_exactly_the_reference",
    "C105_other_calls_do_not_change",
    "C105_subSequence",
    "C105_subSequence_errors",
    "C105_conversions_are_complete",
    "C105_exactly_the_touched_arguments_change",
    "C105_general_notation_of_decimals",
    "C105_the_width_is_a_minimum",
    "C105_same_number_same_text"
   ],
   "note": "About the repaired functions of RepairM.v, not about the code of the repository. Numbers of finding 8 (scale near Integer.MIN_VALUE) still end in ArithmeticException under %e and %g, as the reference says. Which conversions change: exactly the cases of touched in RepairSpec.v, all decidable conditions on the directive and the number; which calls: those with such a conversion, or a '*' width of Integer.MIN_VALUE."
  },
  {
   "property": "C106",
   "status": "proved",
   "theorems": [
    "C106_calls_follow_the_reference",
    "C106_the_reference_is_complete",
    "C106_calls_give_exactly_the_reference",
    "C106_prints_what_C_prints",
    "C106_the_only_line",
    "C106_other_arguments",
    "C106_changes_where_C_differs",
    "C106_one_directive"
   ],
   "note": "About the changed functions of GlibcM.v, not about the code of the repository. Lines of C as in PortSpec.v (C98): C locale, characters for bytes, %d %u %o %x %X %c %s %f %F %e %E %g %G %a %A. The theorem on what changes leaves out %a, infinities and NaN, for which C has several texts."
  },
  {
   "property": "C107",
   "status": "proved",
   "theorems": [
    "C107_every_call_returns_the_uncached_result",
    "C107_every_call_finishes",
    "C107_builder_of_a_new_call",
    "C107_cached_builder",
    "C107_builder_is_reused",
    "C107_same_as_before"
   ],
   "note": "About the changed functions of CacheM.v, not about the code of the repository."
  },
  {
   "property": "C108",
   "status": "proved",
   "theorems": [
    "C108_same_result",
    "C108_constant_stack",
    "C108_description",
    "C108_quotes",
    "C108_utf16",
    "C108_caret",
    "C108_caret_same",
    "C108_compile_call",
    "C108_same_call"
   ],
   "note": "About the changed functions of ParseFixM.v, not about the code of the repository."
  },
  {
   "property": "C109",
   "status": "proved",
   "theorems": [
    "C109_calls_follow_the_reference",
    "C109_the_reference_is_complete",
    "C109_output_is_well_formed",
    "C109_same_call",
    "C109_same_exceptions",
    "C109_changes_exactly_the_ill_formed",
    "C109_well_formed_calls_are_kept_refuted"
   ],
   "note": "About the changed functions of UtfFixM.v, not about the code of the repository."
  },
  {
   "property": "C11",
   "status": "partial",
   "theorems": [
    "C11_unsigned_conversions_are_C_partial",
    "C11_zero_with_alternate_form_refuted",
    "C11_exact_text"
   ],
   "note": "false for zero with '#' and zero padding (or a precision, for %o)"
  },
  {
   "property": "C110",
   "status": "proved",
   "theorems": [
    "C110_call_is_its_directives",
    "C110_surplus_arguments",
    "C110_one_owner",
    "C110_one_argument",
    "C110_after_an_exception",
    "C110_java_arguments"
   ],
   "note": "arguments with well-formed sequences (honest); every Java value is one (C110_java_arguments)"
  },
  {
   "property": "C111",
   "status": "proved",
   "theorems": [
    "C111_subSequence",
    "C111_subSequence_same",
    "C111_join",
    "C111_join_same",
    "C111_create",
    "C111_null"
   ],
   "note": "About the changed functions of EdgeM.v, not about the code of the repository."
  },
  {
   "property": "C112",
   "status": "proved",
   "theorems": [
    "C112_conversions_name_the_argument",
    "C112_argument_is_named",
    "C112_all_have_texts",
    "C112_same_failures",
    "C112_cause",
    "C112_kept"
   ],
   "note": "About the changed messages of MsgFixM.v, not about the code of the repository."
  },
  {
   "property": "C113",
   "status": "proved",
   "theorems": [
    "C113_percent_needs_no_argument",
    "C113_percent_is_text",
    "C113_stars",
    "C113_kept"
   ],
   "note": "About the changed loop of PctM.v, not about the code of the repository."
  },
  {
   "property": "C114",
   "status": "proved",
   "theorems": [
    "C114_target_as_argument",
    "C114_string_of_the_target",
    "C114_character_sequences",
    "C114_other_arguments"
   ],
   "note": "About the changed function of AliasFixM.v, not about the code of the repository."
  },
  {
   "property": "C115",
   "status": "proved",
   "theorems": [
    "C115_both_targets",
    "C115_arguments_are_sound",
    "C115_earlier_content",
    "C115_other_targets",
    "C115_kept",
    "C115_java_arguments",
    "C115_plain_directive"
   ],
   "note": "About the changed function of LazyFixM.v, not about the code of the repository."
  },
  {
   "property": "C116",
   "status": "proved",
   "theorems": [
    "C116_text",
    "C116_directive",
    "C116_flat_arrays",
    "C116_prints_like_its_elements"
   ],
   "note": "About the changed function of DeepM.v, not about the code of the repository."
  },
  {
   "property": "C117",
   "status": "proved",
   "theorems": [
    "C117_round_trip",
    "C117_compiled_contexts",
    "C117_only_proper_contexts",
    "C117_earlier_streams",
    "C117_with_pattern",
    "C117_no_pattern",
    "C117_streams_differ"
   ],
   "note": "About the changed serial form of SerFixM.v, not about the code of the repository."
  },
  {
   "property": "C118",
   "status": "proved",
   "theorems": [
    "C118_sequences_print_like_strings",
    "C118_atomic_sequences",
    "C118_no_cast_fails",
    "C118_count"
   ],
   "note": "About the changed function of AdaptM.v, not about the code of the repository."
  },
  {
   "property": "C119",
   "status": "proved",
   "theorems": [
    "C119_no_other_exception",
    "C119_only_printf_exceptions",
    "C119_same_text",
    "C119_calls_follow_the_reference"
   ],
   "note": "About the changed function of WrapM.v, not about the code of the repository."
  },
  {
   "property": "C12",
   "status": "partial",
   "theorems": [
    "C12_string_conversion_partial",
    "C12_string_conversion_of_null",
    "C12_composite_sequence_partial",
    "C12_composite_sequence_in_field_refuted",
    "C12_composite_sequence_exact"
   ],
   "note": "false for a composite Seq argument cut by the precision inside a field"
  },
  {
   "property": "C13",
   "status": "proved",
   "theorems": [
    "C13_upper_case_is_ascii_only",
    "C13_upper_case_idempotent",
    "C13_utils_upper_case",
    "C13_letters"
   ],
   "note": ""
  },
  {
   "property": "C14",
   "status": "partial",
   "theorems": [
    "C14_star_width_is_written_in_place",
    "C14_star_precision_is_written_in_place",
    "C14_star_width_zero",
    "C14_star_width_zero_floating_partial",
    "C14_star_width_zero_in_place",
    "C14_min_value_exact",
    "C14_star_out_of_range",
    "C14_min_value_refuted"
   ],
   "note": "false for a '*' width of Integer.MIN_VALUE only"
  },
  {
   "property": "C15",
   "status": "partial",
   "theorems": [
    "C15_compiled_bounds",
    "C15_run_time_bounds_partial",
    "C15_run_time_bounds",
    "C15_min_value_refuted"
   ],
   "note": "false for a '*' width of Integer.MIN_VALUE only"
  },
  {
   "property": "C16",
   "status": "partial",
   "theorems": [
    "C16_every_call_returns_the_uncached_result_partial",
    "C16_every_call_finishes",
    "C16_reentrant_exact",
    "C16_reentrant_refuted"
   ],
   "note": "false for calls made from an argument's toString() on the same cached formatter; proved for every other history"
  },
  {
   "property": "C17",
   "status": "proved",
   "theorems": [
    "C17_derived_formatters_run_the_same_appenders",
    "C17_derived_formatters_print_the_same",
    "C17_capacity_must_be_positive"
   ],
   "note": "re-entrant use of a cached formatter excluded, see C16"
  },
  {
   "property": "C18",
   "status": "proved",
   "theorems": [
    "C18_sequences_behave_as_lists"
   ],
   "note": "expressions over all factories and combinators; subSequence of composites is C19"
  },
  {
   "property": "C19",
   "status": "partial",
   "theorems": [
    "C19_subsequence_of_atomic",
    "C19_subsequence_text_partial",
    "C19_subsequence_out_of_range",
    "C19_length_refuted",
    "C19_empty_exception_refuted",
    "C19_recorded_length",
    "C19_charAt_of_a_slice"
   ],
   "note": "false as stated: the recorded length of a slice over several leaves is wrong (given exactly); text is right"
  },
  {
   "property": "C20",
   "status": "proved",
   "theorems": [
    "C20_iteration"
   ],
   "note": ""
  },
  {
   "property": "C21",
   "status": "proved",
   "theorems": [
    "C21_announced_length_is_exact",
    "C21_lazy_numbers_are_never_rejected"
   ],
   "note": ""
  },
  {
   "property": "C22",
   "status": "proved",
   "theorems": [
    "C22_every_read_returns_the_text"
   ],
   "note": "String objects are assumed safely published (final fields)"
  },
  {
   "property": "C23",
   "status": "proved",
   "theorems": [
    "C23_round_trip",
    "C23_special",
    "C23_reading_is_unique",
    "C23_injective"
   ],
   "note": ""
  },
  {
   "property": "C24",
   "status": "proved",
   "theorems": [
    "C24_shortest"
   ],
   "note": "lengths 1 and 2 count the same, as in Double.toString"
  },
  {
   "property": "C25",
   "status": "proved",
   "theorems": [
    "C25_closest"
   ],
   "note": ""
  },
  {
   "property": "C26",
   "status": "proved",
   "theorems": [
    "C26_table",
    "C26_flog10pow2",
    "C26_flog10threeQuartersPow2",
    "C26_flog2pow10",
    "C26_pow10",
    "C26_rop_exact"
   ],
   "note": ""
  },
  {
   "property": "C27",
   "status": "proved",
   "theorems": [
    "C27_slow_multiply_high"
   ],
   "note": "the choice between the JDK method and the fallback (method handle lookup) is not modelled"
  },
  {
   "property": "C28",
   "status": "proved",
   "theorems": [
    "C28_fixed_notation",
    "C28_rounding_exists",
    "every_finite_double_has_a_decimal"
   ],
   "note": "every argument with a double value (is_double in DirSpec.v), %f and %F"
  },
  {
   "property": "C29",
   "status": "partial",
   "theorems": [
    "C29_error_bound_partial",
    "C29_exact_values_partial",
    "C29_rounds_the_decimal_refuted",
    "C29_wrong_exactly_across_a_midpoint_partial"
   ],
   "note": "false as stated: the shortest decimal is rounded, not the binary value (%.1f of 0.15); proved: an error bound for all doubles, and correct rounding of the value for integers below 2^53 and for values of at most 15 digits; the result is not nearest exactly when a midpoint lies between value and decimal"
  },
  {
   "property": "C30",
   "status": "proved",
   "theorems": [
    "C30_scientific_notation",
    "C30_scientific_zero",
    "C30_rounding_exists"
   ],
   "note": ""
  },
  {
   "property": "C31",
   "status": "proved",
   "theorems": [
    "C31_general_notation",
    "C31_general_zero"
   ],
   "note": "without '#'; with '#' see C32"
  },
  {
   "property": "C32",
   "status": "partial",
   "theorems": [
    "C32_alternate_form_positional_partial",
    "C32_alternate_form_exponent_partial",
    "C32_alternate_zero",
    "C32_alternate_form_refuted",
    "C32_alternate_form_normal_partial",
    "C32_seventeen_digits_refuted",
    "C32_digits_exist",
    "C32_general_exact"
   ],
   "note": "true in positional notation; in exponent notation the value is right but the digits are not padded to P (%#g of Double.MIN_VALUE); for normal doubles true up to P = 16, false for 17; C32_general_exact gives the text in all cases"
  },
  {
   "property": "C33",
   "status": "proved",
   "theorems": [
    "C33_hexadecimal_exact",
    "C33_hexadecimal_with_precision"
   ],
   "note": "precision 0 counts as precision 1"
  },
  {
   "property": "C34",
   "status": "partial",
   "theorems": [
    "C34_fixed_notation_partial",
    "C34_rounding_exists",
    "C34_zero_with_negative_scale",
    "C34_leading_zeros_refuted",
    "C34_tiny_numbers",
    "C34_tiny_bound",
    "C34_tiny_refuted"
   ],
   "note": "true except for a zero with negative scale, which gets one superfluous zero per unit of scale (exact text proved), and for numbers other than 0 whose scale exceeds the precision by more than 646456992, which are rejected"
  },
  {
   "property": "C35",
   "status": "partial",
   "theorems": [
    "C35_scientific_notation_partial",
    "C35_exponent_nine",
    "C35_zero",
    "C35_overflow",
    "C35_rounding_exists",
    "C35_scientific_notation_refuted"
   ],
   "note": "true except: exponent 9 with exactly ten digits kept is printed with one digit (text proved); a zero gets the exponent minus its scale (text proved); a last digit kept with an exponent above 2^31 is rejected (exactly then: C35_overflow)"
  },
  {
   "property": "C36",
   "status": "partial",
   "theorems": [
    "C36_general_notation_characterised",
    "C36_general_notation_partial",
    "C36_general_notation_without_width_partial",
    "C36_alternate_form_partial",
    "C36_zero",
    "C36_overflow",
    "C36_hexadecimal_rejected",
    "C36_general_notation_refuted",
    "C105_general_notation_of_decimals"
   ],
   "note": "the exact text is characterised for all values, and which values are rejected; it is C's when rounding does not move the value across the limits for the notation, without '#' or width; refuted: notation chosen before rounding, zero with a scale, '#', padding; exactly when it is C's is decided by g_differs (C105_general_notation_of_decimals)"
  },
  {
   "property": "C37",
   "status": "proved",
   "theorems": [
    "C37_pattern_string_round_trip",
    "C37_pattern_string_round_trip_exact",
    "C37_pattern_text"
   ],
   "note": "the explicit date pattern is not part of toPatternString"
  },
  {
   "property": "C38",
   "status": "proved",
   "theorems": [
    "C38_literal_rendering_reads_back",
    "C38_literal_rendering_is_injective",
    "C38_no_control_characters"
   ],
   "note": ""
  },
  {
   "property": "C39",
   "status": "proved",
   "theorems": [
    "C39_template_substitution",
    "C39_every_text_is_a_template"
   ],
   "note": "arguments given by their texts"
  },
  {
   "property": "C40",
   "status": "proved",
   "theorems": [
    "C40_values_in_insertion_order",
    "C40_iteration_in_insertion_order",
    "C40_put_picks_the_specific_method",
    "C40_of_is_the_chain_of_puts",
    "C40_boxing_is_irrelevant_without_p",
    "C40_toString"
   ],
   "note": ""
  },
  {
   "property": "C41",
   "status": "proved",
   "theorems": [
    "C41_hash_is_that_of_the_text",
    "C41_equals_compares_the_texts",
    "C41_equal_arrays_have_equal_hashes"
   ],
   "note": ""
  },
  {
   "property": "C42",
   "status": "partial",
   "theorems": [
    "C42_sign_of_finite_values",
    "C42_infinity",
    "C42_nan",
    "C42_space_flag_with_infinity_refuted"
   ],
   "note": "false only for the space flag with an infinity, where no blank is printed"
  },
  {
   "property": "C43",
   "status": "partial",
   "theorems": [
    "C43_monotone_partial",
    "C43_negative_is_rejected",
    "C43_monotone_exact",
    "C43_monotone_refuted"
   ],
   "note": "false across 4294967295, where seconds change to milliseconds"
  },
  {
   "property": "C44",
   "status": "partial",
   "theorems": [
    "C44_message_partial",
    "C44_caret_column",
    "C44_message_exact",
    "C44_caret_at_end_refuted"
   ],
   "note": "false for an error reported at the end of the source: no caret line"
  },
  {
   "property": "C45",
   "status": "partial",
   "theorems": [
    "C45_integer_zero_padding_partial",
    "C45_zero_with_alternate_form_refuted",
    "C45_floating_zero_padding_partial",
    "C45_decimal_general_notation_exact",
    "C11_exact_text"
   ],
   "note": "integers; all floating conversions of doubles; %f and %e of BigDecimal/BigInteger; false for zero with '#'"
  },
  {
   "property": "C46",
   "status": "proved",
   "theorems": [
    "C46_every_value_is_an_integer_or_not",
    "C46_rejected",
    "C46_null_rejected"
   ],
   "note": "objects are given by the answers of their class (obj in TraitsM.v)"
  },
  {
   "property": "C47",
   "status": "proved",
   "theorems": [
    "C47_every_value_is_an_int_or_not",
    "C47_star_takes_the_int",
    "C47_star_rejected"
   ],
   "note": ""
  },
  {
   "property": "C48",
   "status": "proved",
   "theorems": [
    "C48_every_value_is_a_character_or_not",
    "C48_prints_one_character",
    "C48_rejected",
    "C48_exceptions_of_the_object"
   ],
   "note": ""
  },
  {
   "property": "C49",
   "status": "proved",
   "theorems": [
    "C49_every_value_is_a_time_or_not",
    "C49_prints_the_date",
    "C49_rejected",
    "C49_dated_is_total"
   ],
   "note": "DateTimeFormatter and the time zone are parameters"
  },
  {
   "property": "C50",
   "status": "proved",
   "theorems": [
    "C50_pointer"
   ],
   "note": "class name and identity hash are given by the argument"
  },
  {
   "property": "C51",
   "status": "proved",
   "theorems": [
    "C51_every_value_is_a_number_or_not",
    "C51_rejected"
   ],
   "note": "Double.parseDouble is a parameter"
  },
  {
   "property": "C52",
   "status": "proved",
   "theorems": [
    "C52_every_call_ends_well",
    "C52_error_classes",
    "C52_null_pointer"
   ],
   "note": "BigDecimals with fewer than 2000000000 digits when written out; Seq arguments with correct recorded lengths; memory not modelled"
  },
  {
   "property": "C53",
   "status": "proved",
   "theorems": [
    "C53_double_to_string",
    "C53_special_values",
    "C53_text_is_determined",
    "C53_text_determines_number",
    "C53_injective",
    "C53_append_to"
   ],
   "note": ""
  },
  {
   "property": "C54",
   "status": "partial",
   "theorems": [
    "C54_join_array",
    "C54_join_iterable_partial",
    "C54_join_iterable_exact",
    "C54_join_others",
    "C54_join_iterable_refuted"
   ],
   "note": "false for an Iterable or Iterator whose first element throws: it goes to StringBuilder.append unguarded"
  },
  {
   "property": "C55",
   "status": "proved",
   "theorems": [
    "C55_text_is_the_rounded_number",
    "C55_round_trip",
    "C55_injective",
    "C55_sixteen_digits_do_not_suffice",
    "C55_hexadecimal"
   ],
   "note": "doubles; for BigDecimal see C34-C36"
  },
  {
   "property": "C56",
   "status": "proved",
   "theorems": [
    "C56_short_decimals_survive",
    "C56_fifteen_digits"
   ],
   "note": ""
  },
  {
   "property": "C57",
   "status": "proved",
   "theorems": [
    "C57_monotone",
    "C57_texts_are_numbers"
   ],
   "note": ""
  },
  {
   "property": "C58",
   "status": "proved",
   "theorems": [
    "C58_calls_do_not_depend_on_the_target",
    "C58_calls_spell_the_text",
    "C58_full_target_holds_a_prefix"
   ],
   "note": ""
  },
  {
   "property": "C59",
   "status": "proved",
   "theorems": [
    "C59_every_error_explained",
    "C59_rest_of_the_source_is_irrelevant",
    "C59_unexpected_end_is_the_end",
    "C59_before_the_index_nothing_is_wrong"
   ],
   "note": ""
  },
  {
   "property": "C60",
   "status": "partial",
   "theorems": [
    "C60_bounded_stack_refuted",
    "C60_exact_depth",
    "C60_bounded_stack_partial"
   ],
   "note": "false: the parser recurses once per directive, so long formats overflow any stack; the exact depth is given"
  },
  {
   "property": "C61",
   "status": "partial",
   "theorems": [
    "C61_n_prints_nothing",
    "C61_n_consumes_one_argument",
    "C61_argument_is_required",
    "C61_double_percent_partial",
    "C61_percent_with_a_width",
    "C61_percent_needs_no_argument_refuted"
   ],
   "note": "false for a % conversion with flags, width or precision, which takes an argument; %% and %n proved"
  },
  {
   "property": "C62",
   "status": "partial",
   "theorems": [
    "C62_default_capacity",
    "C62_setters",
    "C62_builder_of_a_new_call",
    "C62_idle_builder_refuted"
   ],
   "note": "the builder a call starts with: proved; false while idle: a builder grown beyond 65536 is kept until the next call"
  },
  {
   "property": "C63",
   "status": "partial",
   "theorems": [
    "C63_round_trip",
    "C63_injective",
    "C63_six_digits",
    "C63_shortest_decimal_refuted"
   ],
   "note": "reading back, injectivity and six digits proved; false for the shortest decimal: a float is printed from the shortest decimal of the double it widens to"
  },
  {
   "property": "C64",
   "status": "partial",
   "theorems": [
    "C64_text_is_the_rounded_number",
    "C64_texts_are_numbers",
    "C64_exact",
    "C64_injective",
    "C64_monotone",
    "C64_mixed_monotone_refuted"
   ],
   "note": "proved for BigDecimal and BigInteger; false for the order between a double and a BigDecimal"
  },
  {
   "property": "C65",
   "status": "partial",
   "theorems": [
    "C65_integers_agree",
    "C65_string_and_decimal_agree",
    "C65_doubles_agree",
    "C65_double_and_decimal_agree",
    "C65_double_and_decimal_agree_in_exponent_form",
    "C65_small_integers_agree",
    "C65_large_integers_refuted"
   ],
   "note": "false for %f of a long beyond 2^53, which goes by way of a double, and for %e of decimals with ten digits and exponent 9 (C35)"
  },
  {
   "property": "C66",
   "status": "proved",
   "theorems": [
    "C66_integers_sort",
    "C66_fitting_integers_sort",
    "C66_doubles_sort",
    "C66_negative_numbers_refuted"
   ],
   "note": "C66_negative_numbers_refuted shows that the restriction to non-negative numbers is needed"
  },
  {
   "property": "C67",
   "status": "proved",
   "theorems": [
    "C67_integers",
    "C67_machine_integers",
    "C67_doubles",
    "C67_one_bound_for_all",
    "C67_decimals_are_unbounded"
   ],
   "note": ""
  },
  {
   "property": "C68",
   "status": "proved",
   "theorems": [
    "C68_value_semantics",
    "C68_contexts_never_change",
    "C68_setters"
   ],
   "note": ""
  },
  {
   "property": "C69",
   "status": "proved",
   "theorems": [
    "C69_flags_of_text",
    "C69_rejected_text",
    "C69_same_as_compiled",
    "C69_text_is_injective",
    "C69_text"
   ],
   "note": ""
  },
  {
   "property": "C70",
   "status": "partial",
   "theorems": [
    "C70_every_failed_conversion_has_a_message",
    "C70_message_of_a_rejected_call",
    "C70_string_messages",
    "C70_object_messages",
    "C70_temporal_messages",
    "C70_other_messages",
    "C70_big_messages",
    "C70_primitive_messages",
    "C70_range_messages",
    "C70_argument_is_named_partial",
    "C70_slot_instead_of_argument_refuted",
    "C70_sign_is_lost_refuted",
    "C70_cause_refuted"
   ],
   "note": "false for %t of numbers and strings, %a of a negative BigDecimal, and the cause for dates; all messages are given exactly"
  },
  {
   "property": "C71",
   "status": "proved",
   "theorems": [
    "C71_integers",
    "C71_decimals",
    "C71_layouts"
   ],
   "note": ""
  },
  {
   "property": "C72",
   "status": "partial",
   "theorems": [
    "C72_target_as_argument_partial",
    "C72_string_of_the_target",
    "C72_other_conversions",
    "C72_other_arguments",
    "C72_padding_in_front_refuted"
   ],
   "note": "false for %s with spaces in front of a target of two or more characters, whose result is given exactly; proved for all else"
  },
  {
   "property": "C73",
   "status": "proved",
   "theorems": [
    "C73_calls",
    "C73_nothing_is_asked_after_a_modification",
    "C73_other_effects_are_harmless",
    "C73_modification_ends_the_call"
   ],
   "note": ""
  },
  {
   "property": "C74",
   "status": "proved",
   "theorems": [
    "C74_calls_follow_the_reference",
    "C74_the_reference_is_complete",
    "C74_calls_give_exactly_the_reference",
    "C74_every_call",
    "C74_conversions_are_complete"
   ],
   "note": ""
  },
  {
   "property": "C75",
   "status": "proved",
   "theorems": [
    "C75_where_characters_come_from",
    "C75_returned_text",
    "C75_sets_are_kept",
    "C75_numbers",
    "C75_own_is_printable_ascii"
   ],
   "note": ""
  },
  {
   "property": "C76",
   "status": "partial",
   "theorems": [
    "C76_output_is_well_formed_partial",
    "C76_no_surrogates",
    "C76_precision_exact",
    "C76_character_exact",
    "C76_precision_refuted",
    "C76_character_refuted"
   ],
   "note": "false for a precision that cuts a surrogate pair and for %c of a text starting with one; proved for all else, and the exact conditions are given"
  },
  {
   "property": "C77",
   "status": "partial",
   "theorems": [
    "C77_null_is_refused",
    "C77_others_are_not_affected",
    "C77_join_exact",
    "C77_join_refuted",
    "C77_append_exact",
    "C77_append_refuted",
    "C77_wrap_tail_refuted",
    "C77_null_array",
    "C77_expected_size"
   ],
   "note": "false for Seq.join of a list with the only element null, append and prepend of null, and Seq.wrap(null, start); the outcome is given exactly for all"
  },
  {
   "property": "C78",
   "status": "partial",
   "theorems": [
    "C78_deque_size",
    "C78_right_leaning_needs_one_place",
    "C78_prepends",
    "C78_shape_of_appends",
    "C78_appends_exact",
    "C78_rearranging_saves_one",
    "C78_right_leaning_refuted",
    "C78_initial_capacity"
   ],
   "note": "false for chains of append: n parts need n-2 places, more than the initial capacity from 8 parts on; proved for chains of prepend"
  },
  {
   "property": "C79",
   "status": "proved",
   "theorems": [
    "C79_doubles",
    "C79_repeat",
    "C79_repeated_characters",
    "C79_negative_counts_differ"
   ],
   "note": ""
  },
  {
   "property": "C80",
   "status": "partial",
   "theorems": [
    "C80_same_errors",
    "C80_description",
    "C80_every_error_is_described",
    "C80_quotes_partial",
    "C80_flag_quote_refuted",
    "C80_flag_is_never_quoted",
    "C80_cause",
    "C80_message",
    "C80_utf16_refuted"
   ],
   "note": "false for a repeated flag, where the name of an enum constant is quoted; the description, cause and message are given exactly for every malformed format string"
  },
  {
   "property": "C81",
   "status": "proved",
   "theorems": [
    "C81_ignored_flags",
    "C81_flag_order",
    "C81_ignored_precision",
    "C81_ignored_width"
   ],
   "note": "for arguments as in C74 (every Java value); the flag order for all arguments"
  },
  {
   "property": "C82",
   "status": "partial",
   "theorems": [
    "C82_wrong_exactly_across_a_midpoint_partial",
    "C82_error_bound_partial",
    "C82_nearest_refuted",
    "C82_many_digits_refuted"
   ],
   "note": "false: the shortest decimal is rounded; proved exactly when the result is nearest (no midpoint between the double and its decimal), and an error bound for all"
  },
  {
   "property": "C83",
   "status": "partial",
   "theorems": [
    "C83_atomic_sequences_print_like_strings",
    "C83_default_methods",
    "C83_concatenation",
    "C83_plain_sequences_partial",
    "C83_plain_sequences_refuted"
   ],
   "note": "proved for classes that implement AtomicSeq; false for classes that implement Seq only, which fail exactly when they are padded; for classes that implement AtomicSeqIterable see C88"
  },
  {
   "property": "C84",
   "status": "partial",
   "theorems": [
    "C84_serialization_exact",
    "C84_compiled_contexts_partial",
    "C84_date_pattern_refuted",
    "C84_read_checks_nothing_refuted",
    "C84_what_can_be_read"
   ],
   "note": "false for contexts with a date pattern, which cannot be written, and for streams not written by the library; proved exactly which contexts come back and what can be read"
  },
  {
   "property": "C85",
   "status": "partial",
   "theorems": [
    "C85_histories_exact",
    "C85_slices_follow_partial",
    "C85_single_character_refuted",
    "C85_hash_refuted",
    "C85_hash_partial",
    "C85_printed_as_it_is"
   ],
   "note": "false for slices of one character and for the cached hash code; everything a client can observe is given exactly for every history"
  },
  {
   "property": "C86",
   "status": "partial",
   "theorems": [
    "C86_failing_actions",
    "C86_other_targets",
    "C86_honest_arguments",
    "C86_java_arguments",
    "C86_plain_directive",
    "C86_part_is_kept_refuted",
    "C86_action_sees_the_target_refuted"
   ],
   "note": "false for StringBuilder targets, which the action gets to see; proved exactly what can differ, and that nothing does for other targets and other arguments"
  },
  {
   "property": "C87",
   "status": "partial",
   "theorems": [
    "C87_usage_example",
    "C87_exponents",
    "C87_exponent_example_refuted",
    "C87_hexadecimal_digits",
    "C87_hexadecimal_example_refuted",
    "C87_no_argument_index",
    "C87_shortest_refuted"
   ],
   "note": "false for three examples and for the length of %g; the example call and the rejection of argument indices are proved, the other rows of the table are in C87_example"
  },
  {
   "property": "C88",
   "status": "proved",
   "theorems": [
    "C88_consistent_composites_print_like_arrays",
    "C88_text",
    "C88_unfold_in_other_order_refuted",
    "C88_unfold_to_itself_refuted"
   ],
   "note": "the two refuted theorems show that the hypothesis is needed"
  },
  {
   "property": "C89",
   "status": "proved",
   "theorems": [
    "C89_finite_iterators",
    "C89_endless_iterators",
    "C89_exceptions",
    "C89_protocol",
    "C89_no_iterator"
   ],
   "note": ""
  },
  {
   "property": "C90",
   "status": "partial",
   "theorems": [
    "C90_counts",
    "C90_capacities",
    "C90_calls_partial",
    "C90_expressions_partial",
    "C90_doubling",
    "C90_upper_case_refuted",
    "C90_to_string_refuted"
   ],
   "note": "False beyond the int type (C90_upper_case_refuted, C90_to_string_refuted). Proved for sequences with fewer than 2^31 - 1 leaves and recorded lengths that are not negative, which is all that is missing; C90_capacities is the exact condition."
  },
  {
   "property": "C91",
   "status": "proved",
   "theorems": [
    "C91_notations_agree",
    "C91_e_and_g_agree"
   ],
   "note": "For decimals that %f can write out (fits, see C64); the sign is part of the numeral."
  },
  {
   "property": "C92",
   "status": "proved",
   "theorems": [
    "C92_printing_again",
    "C92_exactly",
    "C92_fixed_notation",
    "C92_unstable_refuted",
    "C92_overflow_refuted"
   ],
   "note": "Exact: the text comes back if and only if none of the listed exceptions applies, and every listed exception is one. Hypothesis on the JDK: Double.parseDouble reads decimal numerals to nearest even (reads_numerals)."
  },
  {
   "property": "C93",
   "status": "proved",
   "theorems": [
    "C93_flog10pow2",
    "C93_flog10threeQuartersPow2",
    "C93_flog2pow10",
    "C93_limits",
    "C93_constants"
   ],
   "note": ""
  },
  {
   "property": "C94",
   "status": "partial",
   "theorems": [
    "C94_base64_decodes",
    "C94_base64_unique",
    "C94_array_text",
    "C94_texts_exist",
    "C94_prints_like_its_elements_partial",
    "C94_ints",
    "C94_nested_arrays_refuted",
    "C94_upper_case_base64_refuted"
   ],
   "note": "The element-wise statement is false for arrays inside arrays (they print their identity) and for elements whose toString fails (the array prints, the element does not); the rest is proved. %S of a byte[] is not decodable."
  },
  {
   "property": "C95",
   "status": "partial",
   "theorems": [
    "C95_signum_integers",
    "C95_signum_decimals",
    "C95_signum_doubles_partial",
    "C95_signum_refuted",
    "C95_integer_texts",
    "C95_decimal_layout",
    "C95_number_of_digits_refuted",
    "C95_scientific_layout",
    "C95_hex_layout",
    "C95_hex_layout_exact",
    "C95_forms",
    "C95_hex_layout_refuted"
   ],
   "note": "The statement on signs is false exactly for -0.0 and NaN; proved for all others. The documentation of the layouts promises p digits; at most p is proved, exactly p refuted; hexLayout is proved for every p (rounded digits for 1 <= p <= 12, all digits otherwise); that 0 leaves no digit is refuted."
  },
  {
   "property": "C96",
   "status": "proved",
   "theorems": [
    "C96_sequences_print_like_strings",
    "C96_which_method_counts",
    "C96_text",
    "C96_charAt_throws",
    "C96_odd_answers",
    "C96_s_prints_toString_refuted",
    "C96_null_text_refuted"
   ],
   "note": "The refuted theorems record what one might expect but the statement does not say: %s does not call toString, and a null text is rejected with NullPointerException by the floating conversions."
  },
  {
   "property": "C97",
   "status": "proved",
   "theorems": [
    "C97_fields_are_found",
    "C97_numbers_are_words",
    "C97_integers_are_digits",
    "C97_numbers_come_back",
    "C97_same_line_same_numbers",
    "C97_adjacent_fields_refuted",
    "C97_precision_zero_refuted"
   ],
   "note": "The refuted theorems show that the two conditions of the statement are needed."
  },
  {
   "property": "C98",
   "status": "partial",
   "theorems": [
    "C98_c_prints",
    "C98_c_is_determined",
    "C98_one_directive",
    "C98_portable_calls",
    "C98_rounding_by_midpoints",
    "C98_exact_decimals",
    "C98_prints_like_c_refuted"
   ],
   "note": "The statement is false; C98_one_directive gives the exact set of directives and arguments for which the text is none of C's, C98_portable_calls the remainder for whole calls."
  },
  {
   "property": "C99",
   "status": "partial",
   "theorems": [
    "C99_shared_syntax",
    "C99_java_prints",
    "C99_java_is_determined",
    "C99_one_directive",
    "C99_null",
    "C99_same_calls",
    "C99_never_differ",
    "C99_decimal_exponents",
    "C99_ascii_upper",
    "C99_prints_like_java_refuted",
    "C99_decimals_like_java_refuted",
    "C99_java_refuses"
   ],
   "note": "The statement is false; C99_one_directive gives the exact set of directives and arguments with another text, C99_same_calls the remainder for whole calls. %a with a precision and %g of BigDecimal zeros with a scale are not compared."
  }
 ]
}
