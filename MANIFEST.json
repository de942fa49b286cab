{"claims": [
 {"property": "C01", "status": "proved", "theorems": ["demangle_never_panics"], "note": ""},
 {"property": "C02", "status": "proved", "theorems": ["demangle_terminates", "parse_depth_linear", "node_graph_acyclic"], "note": ""},
 {"property": "C03", "status": "proved", "theorems": ["nesting_unbounded"], "note": ""},
 {"property": "C04", "status": "proved", "theorems": ["output_size_bound", "output_size_bound_into"], "note": ""},
 {"property": "C05", "status": "proved", "theorems": ["node_budget_threshold", "success_within_budget", "over_budget_rejected", "parameter_budget"], "note": ""},
 {"property": "C06", "status": "proved", "theorems": ["output_is_utf8"], "note": ""},
 {"property": "C07", "status": "proved", "theorems": ["no_invented_characters", "ascii_in_ascii_out"], "note": ""},
 {"property": "C08", "status": "proved", "theorems": ["buffer_is_irrelevant", "allocation_is_irrelevant"], "note": ""},
 {"property": "C09", "status": "proved", "theorems": ["failure_empties_buffer"], "note": ""},
 {"property": "C10", "status": "proved", "theorems": ["not_a_symbol_rejected"], "note": ""},
 {"property": "C11", "status": "proved", "theorems": ["md5_passed_through", "md5_unterminated"], "note": ""},
 {"property": "C12", "status": "proved", "theorems": ["template_number", "every_number", "long_number", "dec_N_value"], "note": ""},
 {"property": "C13", "status": "proved", "theorems": ["array_variable", "int_array_variable", "array_bad_rank", "array_negative_dimension"], "note": ""},
 {"property": "C14", "status": "proved", "theorems": ["narrow_string_literal", "wide_string_literal", "c_string_literal"], "note": ""},
 {"property": "C15", "status": "proved", "theorems": ["string_literal_output_printable"], "note": ""},
 {"property": "C16", "status": "proved", "theorems": ["name_backref", "type_name_backref", "name_backref_missing", "type_name_backref_missing", "defect_rejected"], "note": ""},
 {"property": "C17", "status": "proved", "theorems": ["param_backref", "param_backref_missing", "defect_rejected"], "note": ""},
 {"property": "C18", "status": "proved", "theorems": ["outside_after_template", "outside_after_template_missing", "outside_after_template_symbol", "outside_params", "inside_missing", "inside_backref", "inside_params_missing"], "note": ""},
 {"property": "C19", "status": "proved", "theorems": ["unknown_flag_bits_ignored"], "note": ""},
 {"property": "C20", "status": "proved", "theorems": ["name_only_subsumes", "name_only_subsumes_no_more"], "note": ""},
 {"property": "C21", "status": "proved", "theorems": ["no_ms_keywords_subsumes"], "note": ""},
 {"property": "C22", "status": "proved", "theorems": ["flags_change_acceptance", "flags_change_meaning"], "note": ""},
 {"property": "C23", "status": "proved", "theorems": ["output_limit_threshold", "limit_errors"], "note": ""},
 {"property": "C24", "status": "proved", "theorems": ["variable_round_trip", "symbol_demangles"], "note": ""},
 {"property": "C25", "status": "proved", "theorems": ["function_round_trip", "symbol_demangles"], "note": ""},
 {"property": "C26", "status": "proved", "theorems": ["operator_name", "structor_name", "template_structor_name", "conversion_name", "operator_spelled", "structor_spelled"], "note": ""},
 {"property": "C27", "status": "proved", "theorems": ["trailing_ignored", "trailing_ignored_into", "no_longer_meaning", "typeinfo_then_text", "descriptor_then_text"], "note": "For every accepted input. Local static guards (what follows is their index) and MD5 names (which can be extended) are excluded, with examples showing why."},
 {"property": "C28", "status": "proved", "theorems": ["typeinfo_name", "typeinfo_name_trailing", "typeinfo_type", "typeinfo_trailing"], "note": "Texts of more than 1638 characters may hit the node budget instead (stated)."},
 {"property": "C29", "status": "proved", "theorems": ["flags_only_delete", "flags_only_delete_typeinfo", "flags_keep_acceptance"], "note": "For every accepted input, not only those of the grammar. Type-info names can gain one space (proved to be the only exception; a concrete case is shown)."},
 {"property": "C30", "status": "proved", "theorems": ["adjustor_thunk", "vtordisp_thunk", "vtordispex_thunk", "wrap32_spec"], "note": ""},
 {"property": "C31", "status": "proved", "theorems": ["table_symbol", "table_symbol_for", "rtti_symbol", "base_descriptor_symbol", "guard_symbol", "guard_symbol_plain", "vcall_symbol", "dynamic_symbol", "type_descriptor"], "note": "Texts of more than 1638 characters may hit the node budget instead (stated)."},
 {"property": "C32", "status": "proved", "theorems": ["anonymous_namespace", "anonymous_slot"], "note": ""},
 {"property": "C33", "status": "proved", "theorems": ["accepted_is_decorated", "decorated_accepted", "accepts_exactly", "others_rejected", "one_reading"], "note": "For all strings; the 'if' direction without a length bound allows MaliciousInput beyond 1638 characters."},
 {"property": "C34", "status": "proved", "theorems": ["short_never_malicious", "malicious_is_long", "nodes_per_character"], "note": "The bound is within 6% of the best possible: dense_case is a 1729-character text that is rejected."},
 {"property": "C35", "status": "proved", "theorems": ["one_meaning", "symbols_delimit_themselves", "no_symbol_inside_another"], "note": "No bound on length or output size."},
 {"property": "C36", "status": "proved", "theorems": ["flags_never_decide", "rejected_under_all_flags"], "note": "Template instantiations are excluded, and verdict_template shows that they must be."},
 {"property": "C37", "status": "proved", "theorems": ["brackets_match", "angle_brackets_match"], "note": "brackets_of_names_only, brackets_of_operators and brackets_of_input show that the hypotheses are needed; the first is a defect of the code."},
 {"property": "C38", "status": "proved", "theorems": ["printing_effort", "counting_is_faithful"], "note": "Counts the visits of the final printing, including one cut off at the output limit; the renderings made while parsing are the subject of C43."},
 {"property": "C39", "status": "proved", "theorems": ["reported_exactly", "only_reported", "dead_errors"], "note": ""},
 {"property": "C40", "status": "proved", "theorems": ["text_tells_apart", "symbols_tell_apart"], "note": "for the symbols and names the statement lists; the flag word is 0"},
 {"property": "C41", "status": "proved", "theorems": ["amplification", "amplification_without_references", "output_limit_needed", "reading_outcome"], "note": ""},
 {"property": "C42", "status": "proved", "theorems": ["flags_hide"], "note": ""},
 {"property": "C43", "status": "proved", "theorems": ["metering_is_faithful", "renderings_are_faithful", "work_of_parsing", "work_bounded", "memory_of_parsing", "work_is_linear", "searching_is_linear"], "note": ""},
 {"property": "C44", "status": "proved", "theorems": ["only_references_and_limits_decide", "limits_decide_nothing_else", "malformed_under_every_setting", "accepted_under_every_setting"], "note": ""},
 {"property": "C45", "status": "proved", "theorems": ["wide_characters_are_opaque", "wide_characters_are_opaque_into", "only_own_classes_matter", "ascii_needs_no_tables"], "note": ""},
 {"property": "C46", "status": "proved", "theorems": ["no_invented_control_characters", "one_line_stays_one_line", "two_lines", "options_set_their_flags"], "note": ""},
 {"property": "C47", "status": "proved", "theorems": ["text_that_fits_is_written_in_place", "full_size_buffer_is_never_reallocated", "same_call_needs_no_more", "warm_buffer_is_never_reallocated"], "note": ""},
 {"property": "C48", "status": "proved", "theorems": ["bytes_and_characters_agree", "texts_are_whole_characters", "cuts_only_at_boundaries"], "note": ""},
 {"property": "C49", "status": "proved", "theorems": ["machine_integers_agree", "machine_functions_return", "unchecked_operations_are_safe", "sizes_do_not_overflow"], "note": "per function: each leaf function with fixed-width, checked arithmetic and unchecked operations equals the function of the model on every state; the subtractions of mangled_string.rs and of the parameter loop are checks in the model itself (C01, C48)"},
 {"property": "C50", "status": "proved", "theorems": ["type_names_printed", "no_name_is_dropped", "name_under_all_flags", "no_argument_is_dropped"], "note": ""},
 {"property": "C51", "status": "proved", "theorems": ["no_words_are_invented", "characters_come_from_names", "every_answer_is_made_of_names"], "note": ""}
]}
