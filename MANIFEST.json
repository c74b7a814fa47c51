{
 "claims": [
  {
   "property": "C01",
   "status": "proved",
   "theorems": [
    "C01_integer_expressions",
    "C01_outcome_unique"
   ],
   "note": ""
  },
  {
   "property": "C02",
   "status": "proved",
   "theorems": [
    "C02_assignment",
    "C02_variable"
   ],
   "note": ""
  },
  {
   "property": "C03",
   "status": "proved",
   "theorems": [
    "C03_out_of_range",
    "C03_assign_expression",
    "C03_top_bit_lost"
   ],
   "note": ""
  },
  {
   "property": "C04",
   "status": "proved",
   "theorems": [
    "C04_prefix",
    "C04_postfix",
    "C04_pointer"
   ],
   "note": ""
  },
  {
   "property": "C05",
   "status": "proved",
   "theorems": [
    "C05_compound_assignment",
    "C05_expression"
   ],
   "note": ""
  },
  {
   "property": "C06",
   "status": "proved",
   "theorems": [
    "C06_cast_variable",
    "C06_cast_number",
    "C06_storage_kept"
   ],
   "note": ""
  },
  {
   "property": "C07",
   "status": "proved",
   "theorems": [
    "C07_logical_and",
    "C07_logical_or",
    "C07_skipped_operand",
    "C07_result_is_boolean"
   ],
   "note": ""
  },
  {
   "property": "C08",
   "status": "proved",
   "theorems": [
    "C08_conditional_expression",
    "C08_if",
    "C08_other_arm_irrelevant",
    "C08_condition_in_range"
   ],
   "note": ""
  },
  {
   "property": "C09",
   "status": "proved",
   "theorems": [
    "C09_truth",
    "C09_mismatch"
   ],
   "note": ""
  },
  {
   "property": "C10",
   "status": "proved",
   "theorems": [
    "C10_while_is_iteration",
    "C10_while_invariant",
    "C10_while_terminates",
    "C10_body_not_entered"
   ],
   "note": ""
  },
  {
   "property": "C11",
   "status": "proved",
   "theorems": [
    "C11_for_is_iteration",
    "C11_for_invariant",
    "C11_initialiser_scope"
   ],
   "note": ""
  },
  {
   "property": "C12",
   "status": "proved",
   "theorems": [
    "C12_return_ends_call",
    "C12_no_return",
    "C12_with_break_refuted"
   ],
   "note": "The restriction to calls without break is necessary: C12_with_break_refuted."
  },
  {
   "property": "C13",
   "status": "proved",
   "theorems": [
    "C13_first_execution",
    "C13_later_executions",
    "C13_later_executions_body",
    "C13_function_is_constant"
   ],
   "note": ""
  },
  {
   "property": "C14",
   "status": "proved",
   "theorems": [
    "C14_scopes_restored",
    "C14_scopes_restored_body",
    "C14_with_break_refuted"
   ],
   "note": "For every reachable state and every evaluation that ends normally. The refutation shows that the hypothesis on break is needed."
  },
  {
   "property": "C15",
   "status": "proved",
   "theorems": [
    "C15_innermost_wins",
    "C15_undeclared_dies",
    "C15_mapped_once",
    "C15_never_rebound",
    "C15_redeclaration_dies",
    "C15_redeclaration_with_initialiser_dies"
   ],
   "note": "Redeclaration: variables of number and pointer types, with or without initialiser."
  },
  {
   "property": "C16",
   "status": "proved",
   "theorems": [
    "C16_caller_names_visible",
    "C16_throughout_the_call"
   ],
   "note": ""
  },
  {
   "property": "C17",
   "status": "proved",
   "theorems": [
    "C17_parameters",
    "C17_names",
    "C17_without_capture",
    "C17_call_value"
   ],
   "note": "Parameters of integer types; arguments are the integer expressions of C01 other than bare variables (which are copied as in C52). The allocator may refuse; then out_of_memory holds."
  },
  {
   "property": "C18",
   "status": "proved",
   "theorems": [
    "C18_count_mismatch",
    "C18_no_parameters",
    "C18_void"
   ],
   "note": ""
  },
  {
   "property": "C19",
   "status": "proved",
   "theorems": [
    "C19_first",
    "C19_again",
    "C19_recorded",
    "C19_record_kept",
    "C19_storage_kept",
    "C19_unrooted_refuted"
   ],
   "note": "First execution: one integer variable with initialiser; recording and later executions: any declaration. The storage is kept for declarations the collector can reach from the program; C19_unrooted_refuted shows that this condition is needed."
  },
  {
   "property": "C20",
   "status": "proved",
   "theorems": [
    "C20_allocated",
    "C20_disjoint",
    "C20_kept",
    "C20_kept_in_scope",
    "C20_evaluation_steps",
    "C20_out_of_memory",
    "C20_refusal"
   ],
   "note": ""
  },
  {
   "property": "C21",
   "status": "proved",
   "theorems": [
    "C21_address",
    "C21_star_address",
    "C21_assign_through",
    "C21_dereference",
    "C21_address_of_array",
    "C21_arrow",
    "C21_arrow_dot",
    "C21_arrow_store"
   ],
   "note": "Both spellings of member access through a pointer have the same syntax tree, made by the parser, which is not modelled.  The allocator may refuse; then out_of_memory holds."
  },
  {
   "property": "C22",
   "status": "proved",
   "theorems": [
    "C22_declaration",
    "C22_element",
    "C22_store",
    "C22_sizeof"
   ],
   "note": "Arrays of numbers and pointers.  The allocator may refuse; then out_of_memory holds."
  },
  {
   "property": "C23",
   "status": "proved",
   "theorems": [
    "C23_structure",
    "C23_statement",
    "C23_layout"
   ],
   "note": "Structures below 2^31 bytes (offsets are int in the code), array lengths not negative.  The type must not have been declared before (the code then overwrites the old type) and the labels of nodes made by the evaluator must not be those of static declarations."
  },
  {
   "property": "C24",
   "status": "proved",
   "theorems": [
    "C24_union",
    "C24_statement",
    "C24_size",
    "C24_shared"
   ],
   "note": "As C23; the shared bytes are stated for integer members."
  },
  {
   "property": "C25",
   "status": "proved",
   "theorems": [
    "C25_object",
    "C25_access",
    "C25_unknown",
    "C25_store",
    "C25_made"
   ],
   "note": "Members are scalars, pointers, arrays of these, and bit-fields (which the code treats as ordinary members).  Stores are stated for integer members."
  },
  {
   "property": "C26",
   "status": "proved",
   "theorems": [
    "C26_enumeration"
   ],
   "note": "Explicit values are the integer expressions of C01."
  },
  {
   "property": "C27",
   "status": "proved",
   "theorems": [
    "C27_typedef",
    "C27_transparent",
    "C27_variables"
   ],
   "note": ""
  },
  {
   "property": "C28",
   "status": "proved",
   "theorems": [
    "C28_resolves",
    "C28_rejects",
    "C28_order",
    "C28_self_typed"
   ],
   "note": "The type table is stated separately (SpecTypes.v, denotes). Lists of specifiers as the parser builds them; a missing list is undefined behaviour in the code and not part of the claim."
  },
  {
   "property": "C29",
   "status": "proved",
   "theorems": [
    "C29_call",
    "C29_call_pointer",
    "C29_returns",
    "C29_returns_pointer",
    "C29_too_many",
    "C29_too_many_pointer",
    "C29_extern"
   ],
   "note": "Every outcome of a call: the function is entered with exactly the passed values or not at all.  A call of an address that is not a function is undefined behaviour and excluded.  The record of calls (trace) is part of the model; libffi itself is not modelled.  Positive theorems (the call happens) for constants and variables as arguments."
  },
  {
   "property": "C30",
   "status": "proved",
   "theorems": [
    "C30_collection",
    "C30_marks_clear",
    "C30_dirty_memory_refuted",
    "C30_dirty_memory_crash_refuted",
    "C30_full_array_refuted"
   ],
   "note": "The _refuted theorems show that the stated conditions are needed."
  },
  {
   "property": "C31",
   "status": "proved",
   "theorems": [
    "C31_terminates",
    "C31_diverges",
    "C31_mark_terminates",
    "C31_mark_diverges"
   ],
   "note": ""
  },
  {
   "property": "C32",
   "status": "proved",
   "theorems": [
    "C32_schedule",
    "C32_no_collection",
    "C32_nests"
   ],
   "note": ""
  },
  {
   "property": "C33",
   "status": "proved",
   "theorems": [
    "C33_chains_are_sequences",
    "C33_deleted_is_unlinked"
   ],
   "note": ""
  },
  {
   "property": "C34",
   "status": "proved",
   "theorems": [
    "C34_list_splice_diverges"
   ],
   "note": ""
  },
  {
   "property": "C35",
   "status": "proved",
   "theorems": [
    "C35_bins",
    "C35_in_table",
    "C35_found"
   ],
   "note": ""
  },
  {
   "property": "C36",
   "status": "proved",
   "theorems": [
    "C36_type_names",
    "C36_for_ever"
   ],
   "note": ""
  },
  {
   "property": "C37",
   "status": "proved",
   "theorems": [
    "C37_decimal",
    "C37_negative",
    "C37_hexadecimal",
    "C37_round_trip"
   ],
   "note": ""
  },
  {
   "property": "C38",
   "status": "proved",
   "theorems": [
    "C38_decodes",
    "C38_newline",
    "C38_other_escape",
    "C38_every_string",
    "C38_unique"
   ],
   "note": "Texts with raw NUL characters excluded. An octal escape above 2^63 saturates."
  },
  {
   "property": "C39",
   "status": "proved",
   "theorems": [
    "C39_value",
    "C39_wide",
    "C39_lone_quote"
   ],
   "note": "Texts with raw NUL characters excluded."
  },
  {
   "property": "C40",
   "status": "proved",
   "theorems": [
    "C40_main",
    "C40_no_main",
    "C40_mixed",
    "C40_no_memory",
    "C40_parameters"
   ],
   "note": "A script is the list of items the parser produced (C58).  The number of parameters is the sum over all declarations of main, as in the code."
  },
  {
   "property": "C41",
   "status": "proved",
   "theorems": [
    "C41_main",
    "C41_return",
    "C41_return_expression",
    "C41_error",
    "C41_exit",
    "C41_main_void",
    "C41_return_after_break_refuted"
   ],
   "note": "C41_return needs that no break statement was executed before: C41_return_after_break_refuted shows a script where a return at top level jumps to a function that is no longer active.  C41_main_void: a script with int main(void) never runs to its end."
  },
  {
   "property": "C42",
   "status": "proved",
   "theorems": [
    "C42_arguments",
    "C42_expressions"
   ],
   "note": "Either the arguments are there or memory was refused; up to 2^31 - 1 arguments."
  },
  {
   "property": "C43",
   "status": "proved",
   "theorems": [
    "C43_pipe",
    "C43_null",
    "C43_long_refuted"
   ],
   "note": "C43_long_refuted shows that the bound on the length is needed."
  },
  {
   "property": "C44",
   "status": "proved",
   "theorems": [
    "C44_completion",
    "C44_same_node_refuted"
   ],
   "note": "C44_same_node_refuted shows that the identifiers must be different nodes."
  },
  {
   "property": "C45",
   "status": "proved",
   "theorems": [
    "C45_dot",
    "C45_arrow",
    "C45_arrow_right",
    "C45_none",
    "C45_compound"
   ],
   "note": ""
  },
  {
   "property": "C46",
   "status": "proved",
   "theorems": [
    "C46_last_line",
    "C46_only_line",
    "C46_short"
   ],
   "note": ""
  },
  {
   "property": "C47",
   "status": "proved",
   "theorems": [
    "C47_options"
   ],
   "note": ""
  },
  {
   "property": "C48",
   "status": "proved",
   "theorems": [
    "C48_accepted",
    "C48_rest_ignored",
    "C48_layout",
    "C48_declared",
    "C48_declared_once",
    "C48_disjoint",
    "C48_disjoint_refuted"
   ],
   "note": "C48_disjoint_refuted shows that the condition on the names of base types is needed; C48_example shows that src/c.lang satisfies it."
  },
  {
   "property": "C49",
   "status": "proved",
   "theorems": [
    "C49_break_ends_loop",
    "C49_break_as_loop_body",
    "C49_break_in_braced_if",
    "C49_break_in_unbraced_if",
    "C49_break_ends_outer_loop"
   ],
   "note": ""
  },
  {
   "property": "C50",
   "status": "proved",
   "theorems": [
    "C50_nested_block_skipped"
   ],
   "note": ""
  },
  {
   "property": "C51",
   "status": "proved",
   "theorems": [
    "C51_declaration",
    "C51_names_it",
    "C51_initialiser",
    "C51_initial_value",
    "C51_same_type_each_time_refuted"
   ],
   "note": "Number and pointer types. The allocator may refuse; then out_of_memory holds."
  },
  {
   "property": "C52",
   "status": "proved",
   "theorems": [
    "C52_copies_eight_bytes",
    "C52_narrowing",
    "C52_widening_refuted"
   ],
   "note": ""
  },
  {
   "property": "C53",
   "status": "proved",
   "theorems": [
    "C53_name",
    "C53_tag"
   ],
   "note": "The words __attribute__, __asm, __asm__ and L, whose effect depends on what follows, are excluded."
  },
  {
   "property": "C54",
   "status": "proved",
   "theorems": [
    "C54_minus"
   ],
   "note": ""
  },
  {
   "property": "C55",
   "status": "proved",
   "theorems": [
    "C55_one_tree"
   ],
   "note": "The model of a parser is its grammar: the tree of an input is the value of its derivation.  That bison's tables find it is not modelled, but the proof is by an LR automaton for each grammar that is checked inside Coq."
  },
  {
   "property": "C56",
   "status": "proved",
   "theorems": [
    "C56_expressions",
    "C56_left",
    "C56_right",
    "C56_assign"
   ],
   "note": "On tokens (scanning: C37-C39, C53, C54).  Operands of prefix operators are not casts (C59).  Existence and uniqueness of the tree."
  },
  {
   "property": "C57",
   "status": "proved",
   "theorems": [
    "C57_sign",
    "C57_literals",
    "C57_name"
   ],
   "note": ""
  },
  {
   "property": "C58",
   "status": "proved",
   "theorems": [
    "C58_scripts",
    "C58_lines",
    "C58_else",
    "C58_else_after"
   ],
   "note": "The programs of SpecSyntax.v: all productions of the grammar except those with type qualifiers or inline (the scanner never yields these tokens) and, in casts and sizeof, type names other than a base type with stars."
  },
  {
   "property": "C59",
   "status": "proved",
   "theorems": [
    "C59_keywords",
    "C59_equals",
    "C59_cast"
   ],
   "note": ""
  },
  {
   "property": "C60",
   "status": "proved",
   "theorems": [
    "C60_body_lost",
    "C60_body_kept",
    "C60_parameters_lost"
   ],
   "note": ""
  },
  {
   "property": "C61",
   "status": "proved",
   "theorems": [
    "C61_declarator",
    "C61_parentheses",
    "C61_bit_field",
    "C61_designated"
   ],
   "note": "For the declarators of SpecSyntax.v."
  },
  {
   "property": "C62",
   "status": "proved",
   "theorems": [
    "C62_text",
    "C62_blanks",
    "C62_attribute",
    "C62_attribute_own_refuted"
   ],
   "note": "Spellings: SpecScan.v.  Not covered by the spellings: #include lines, line markers, __asm__, wide characters."
  },
  {
   "property": "C63",
   "status": "proved",
   "theorems": [
    "C63_expression",
    "C63_variable",
    "C63_any_line"
   ],
   "note": "Session.v composes the models of scanner, parser, name table, preprocessor pipe, evaluator and pretty printer.  The preprocessor is a function of the model's host; it must leave the tokens of the line alone (macros: not covered)."
  },
  {
   "property": "C64",
   "status": "proved",
   "theorems": [
    "C64_rejected",
    "C64_no_statements",
    "C64_no_functions",
    "C64_no_line",
    "C64_several"
   ],
   "note": "Lines without typedef.  Where the parser stops reading a rejected line is over-approximated."
  },
  {
   "property": "C65",
   "status": "proved",
   "theorems": [
    "C65_waits",
    "C65_ignored",
    "C65_rejected_forgotten_refuted"
   ],
   "note": "C65_rejected_forgotten_refuted refutes the claim that a rejected line has no influence on later lines."
  },
  {
   "property": "C66",
   "status": "proved",
   "theorems": [
    "C66_typedef",
    "C66_words",
    "C66_pointer"
   ],
   "note": ""
  },
  {
   "property": "C67",
   "status": "proved",
   "theorems": [
    "C67_reachable"
   ],
   "note": "Lines typed at a nested REPL (<REPL>) are part of the environment of the evaluator."
  },
  {
   "property": "C68",
   "status": "proved",
   "theorems": [
    "C68_assign",
    "C68_assign_show",
    "C68_declare",
    "C68_declare_show"
   ],
   "note": "The allocator may refuse the storage of a declared variable."
  },
  {
   "property": "C69",
   "status": "proved",
   "theorems": [
    "C69_extern",
    "C69_unknown",
    "C69_again",
    "C69_last_type_refuted"
   ],
   "note": "Declarators without brackets; C69_again for number and pointer types.  C69_last_type_refuted refutes the claim that the last accepted declaration gives the type."
  },
  {
   "property": "C70",
   "status": "proved",
   "theorems": [
    "C70_shown",
    "C70_dangling",
    "C70_string",
    "C70_reread",
    "C70_roundtrip_refuted"
   ],
   "note": "The digits of floating-point numbers are part of the host.  C70_roundtrip_refuted refutes the claim that what is printed for a string reads back as the string."
  },
  {
   "property": "C71",
   "status": "proved",
   "theorems": [
    "C71_command",
    "C71_script",
    "C71_runs",
    "C71_status",
    "C71_include_ignored",
    "C71_argv0_refuted"
   ],
   "note": "getopt of the C library is part of the model (argument permutation as in glibc).  C71_argv0_refuted refutes the claim that the first argument is the name of the script."
  },
  {
   "property": "C72",
   "status": "proved",
   "theorems": [
    "C72_number",
    "C72_integer",
    "C72_copy",
    "C72_address",
    "C72_text",
    "C72_other",
    "C72_session",
    "C72_text_lasts_refuted",
    "C72_sign_refuted",
    "C72_plus_zero_refuted",
    "C72_from_int_refuted"
   ],
   "note": "The four _refuted theorems refute the claims that are named as false in the statement."
  },
  {
   "property": "C73",
   "status": "proved",
   "theorems": [
    "C73_variable",
    "C73_array",
    "C73_nameless",
    "C73_other",
    "C73_not_found",
    "C73_semicolon",
    "C73_type_name",
    "C73_signed_refuted"
   ],
   "note": "Places of declarations are part of the host (trees of the model have no loci); values of floating-point type are not covered.  C73_signed_refuted refutes the claim that is named as false in the statement."
  },
  {
   "property": "C74",
   "status": "proved",
   "theorems": [
    "C74_names",
    "C74_same",
    "C74_unchecked",
    "C74_calls",
    "C74_undeclared"
   ],
   "note": "Calls with more than three arguments are left out: there the model does not write the removal of the third argument back into the tree."
  },
  {
   "property": "C75",
   "status": "proved",
   "theorems": [
    "C75_no_file",
    "C75_no_user",
    "C75_file",
    "C75_unparsed",
    "C75_items",
    "C75_redeclared",
    "C75_return",
    "C75_error",
    "C75_reachable",
    "C75_session",
    "C75_lines"
   ],
   "note": "What gcc and the parser make of the file is a parameter (its items and the names of types), as for scripts."
  },
  {
   "property": "C76",
   "status": "proved",
   "theorems": [
    "C76_unique",
    "C76_prefix",
    "C76_shows",
    "C76_bic",
    "C76_any_string_refuted"
   ],
   "note": "C76_any_string_refuted refutes the claim that is named as false in the statement.  Elements of chains are nodes other than chains; live structures (printed as <Unprintable>) are left out."
  },
  {
   "property": "C77",
   "status": "proved",
   "theorems": [
    "C77_picture",
    "C77_text",
    "C77_cluster",
    "C77_label",
    "C77_values_refuted"
   ],
   "note": "C77_values_refuted refutes the claim that is named as false in the statement.  The output is modelled as a list of graph statements, not as text; what a graph tool does with a repeated label (the last one counts) is part of the specification, not of the model of the code."
  }
 ]
}