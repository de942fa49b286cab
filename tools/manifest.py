#!/usr/bin/env python3
"""Writes MANIFEST.json from the table below."""
import json, os
C = {
 "C01": ("proved", ["demangle_never_panics"], ""),
 "C02": ("proved", ["demangle_terminates", "parse_depth_linear", "node_graph_acyclic"], ""),
 "C03": ("proved", ["nesting_unbounded"], ""),
 "C11": ("proved", ["md5_passed_through", "md5_unterminated"], ""),
 "C14": ("proved", ["narrow_string_literal", "wide_string_literal", "c_string_literal"], ""),
 "C15": ("proved", ["string_literal_output_printable"], ""),
 "C04": ("proved", ["output_size_bound", "output_size_bound_into"], ""),
 "C06": ("proved", ["output_is_utf8"], ""),
 "C07": ("proved", ["no_invented_characters", "ascii_in_ascii_out"], ""),
 "C08": ("proved", ["buffer_is_irrelevant", "allocation_is_irrelevant"], ""),
 "C09": ("proved", ["failure_empties_buffer"], ""),
 "C05": ("proved", ["node_budget_threshold", "success_within_budget", "over_budget_rejected", "parameter_budget"], ""),
 "C10": ("proved", ["not_a_symbol_rejected"], ""),
 "C19": ("proved", ["unknown_flag_bits_ignored"], ""),
 "C20": ("proved", ["name_only_subsumes", "name_only_subsumes_no_more"], ""),
 "C21": ("proved", ["no_ms_keywords_subsumes"], ""),
 "C22": ("proved", ["flags_change_acceptance", "flags_change_meaning"], ""),
 "C12": ("proved", ["template_number", "every_number", "long_number", "dec_N_value"], ""),
 "C13": ("proved", ["array_variable", "int_array_variable", "array_bad_rank", "array_negative_dimension"], ""),
 "C16": ("proved", ["name_backref", "type_name_backref", "name_backref_missing", "type_name_backref_missing", "defect_rejected"], ""),
 "C17": ("proved", ["param_backref", "param_backref_missing", "defect_rejected"], ""),
 "C18": ("proved", ["outside_after_template", "outside_after_template_missing", "outside_after_template_symbol", "outside_params", "inside_missing", "inside_backref", "inside_params_missing"], ""),
 "C24": ("proved", ["variable_round_trip", "symbol_demangles"], ""),
 "C25": ("proved", ["function_round_trip", "symbol_demangles"], ""),
 "C26": ("proved", ["operator_name", "structor_name", "template_structor_name", "conversion_name", "operator_spelled", "structor_spelled"], ""),
 "C30": ("proved", ["adjustor_thunk", "vtordisp_thunk", "vtordispex_thunk", "wrap32_spec"], ""),
 "C32": ("proved", ["anonymous_namespace", "anonymous_slot"], ""),
 "C27": ("proved", ["trailing_ignored", "trailing_ignored_into", "no_longer_meaning", "typeinfo_then_text", "descriptor_then_text"], "For every accepted input. Local static guards (what follows is their index) and MD5 names (which can be extended) are excluded, with examples showing why."),
 "C28": ("proved", ["typeinfo_name", "typeinfo_name_trailing", "typeinfo_type", "typeinfo_trailing"], "Texts of more than 1638 characters may hit the node budget instead (stated)."),
 "C31": ("proved", ["table_symbol", "table_symbol_for", "rtti_symbol", "base_descriptor_symbol", "guard_symbol", "guard_symbol_plain", "vcall_symbol", "dynamic_symbol", "type_descriptor"], "Texts of more than 1638 characters may hit the node budget instead (stated)."),
 "C29": ("proved", ["flags_only_delete", "flags_only_delete_typeinfo", "flags_keep_acceptance"], "For every accepted input, not only those of the grammar. Type-info names can gain one space (proved to be the only exception; a concrete case is shown)."),
 "C33": ("proved", ["accepted_is_decorated", "decorated_accepted", "accepts_exactly", "others_rejected", "one_reading"], "For all strings; the 'if' direction without a length bound allows MaliciousInput beyond 1638 characters."),
 "C34": ("proved", ["short_never_malicious", "malicious_is_long", "nodes_per_character"], "The bound is within 6% of the best possible: dense_case is a 1729-character text that is rejected."),
 "C35": ("proved", ["one_meaning", "symbols_delimit_themselves", "no_symbol_inside_another"], "No bound on length or output size."),
 "C36": ("proved", ["flags_never_decide", "rejected_under_all_flags"], "Template instantiations are excluded, and verdict_template shows that they must be."),
 "C37": ("proved", ["brackets_match", "angle_brackets_match"], "brackets_of_names_only, brackets_of_operators and brackets_of_input show that the hypotheses are needed; the first is a defect of the code."),
 "C38": ("proved", ["printing_effort", "counting_is_faithful"], "Counts the visits of the final printing, including one cut off at the output limit; the renderings made while parsing are the subject of C43."),
 "C39": ("proved", ["reported_exactly", "only_reported", "dead_errors"], ""),
 "C40": ("proved", ["text_tells_apart", "symbols_tell_apart"], "for the symbols and names the statement lists; the flag word is 0"),
 "C41": ("proved", ["amplification", "amplification_without_references", "output_limit_needed", "reading_outcome"], ""),
 "C42": ("proved", ["flags_hide"], ""),
 "C43": ("proved", ["metering_is_faithful", "renderings_are_faithful", "work_of_parsing", "work_bounded", "memory_of_parsing", "work_is_linear", "searching_is_linear"], ""),
 "C44": ("proved", ["only_references_and_limits_decide", "limits_decide_nothing_else", "malformed_under_every_setting", "accepted_under_every_setting"], ""),
 "C45": ("proved", ["wide_characters_are_opaque", "wide_characters_are_opaque_into", "only_own_classes_matter", "ascii_needs_no_tables"], ""),
 "C46": ("proved", ["no_invented_control_characters", "one_line_stays_one_line", "two_lines", "options_set_their_flags"], ""),
 "C47": ("proved", ["text_that_fits_is_written_in_place", "full_size_buffer_is_never_reallocated", "same_call_needs_no_more", "warm_buffer_is_never_reallocated"], ""),
 "C48": ("proved", ["bytes_and_characters_agree", "texts_are_whole_characters", "cuts_only_at_boundaries"], ""),
 "C49": ("proved", ["machine_integers_agree", "machine_functions_return", "unchecked_operations_are_safe", "sizes_do_not_overflow"], "per function: each leaf function with fixed-width, checked arithmetic and unchecked operations equals the function of the model on every state; the subtractions of mangled_string.rs and of the parameter loop are checks in the model itself (C01, C48)"),
 "C50": ("proved", ["type_names_printed", "no_name_is_dropped", "name_under_all_flags", "no_argument_is_dropped"], ""),
 "C51": ("proved", ["no_words_are_invented", "characters_come_from_names", "every_answer_is_made_of_names"], ""),
 "C23": ("proved", ["output_limit_threshold", "limit_errors"], ""),
}
d = os.path.dirname(os.path.dirname(os.path.abspath(__file__)))
with open(os.path.join(d, "MANIFEST.json"), "w") as f:
    rows = [json.dumps({"property": k, "status": s, "theorems": t, "note": n}) for k, (s, t, n) in sorted(C.items())]
    f.write('{"claims": [\n ' + ",\n ".join(rows) + "\n]}\n")
