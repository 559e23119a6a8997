{
 "claims": [
  {
   "property": "C01",
   "status": "proved",
   "theorems": [
    "C01_flush_delivers",
    "C01_written_unique",
    "C01_trimmed_unique",
    "C01_level_in_force",
    "C01_underflow",
    "C01_flush_text",
    "C01_null_refuses"
   ],
   "note": "all histories of writeln/indent/unindent and flush, any receiving sink"
  },
  {
   "property": "C02",
   "status": "proved",
   "theorems": [
    "C02_names_distinct",
    "C02_names_distinct_after_clear",
    "C02_kth_name",
    "C02_failures",
    "C02_distinct_refuted"
   ],
   "note": "under the digit proviso; C02_distinct_refuted shows the proviso is needed"
  },
  {
   "property": "C03",
   "status": "proved",
   "theorems": [
    "C03_join",
    "C03_join_errors",
    "C03_declaration_line"
   ],
   "note": ""
  },
  {
   "property": "C04",
   "status": "proved",
   "theorems": [
    "C04_error_branch",
    "C04_lineage_unique",
    "C04_error_branch_text",
    "C04_handle_number",
    "C04_cancel",
    "C04_failures"
   ],
   "note": "all histories of code block calls"
  },
  {
   "property": "C05",
   "status": "proved",
   "theorems": [
    "C05_releases",
    "C05_null_pointer_refuted",
    "C05_string_pointer_refuted",
    "C05_late_cleanup_refuted"
   ],
   "note": "for all handlers following the acquire/cleanup discipline (HandlerSpec.well_behaved); the _refuted theorems exhibit handlers of the repository outside it"
  },
  {
   "property": "C06",
   "status": "proved",
   "theorems": [
    "C06_order",
    "C06_build_order",
    "C06_format",
    "C06_keywords",
    "C06_is_empty"
   ],
   "note": ""
  },
  {
   "property": "C07",
   "status": "proved",
   "theorems": [
    "C07_call_binds",
    "C07_positional",
    "C07_unnamed_refuted"
   ],
   "note": "relative to the model of CPython's PyArg_ParseTuple(AndKeywords) in Model/PyArgs.v; C07_unnamed_refuted shows the naming hypothesis is needed"
  },
  {
   "property": "C08",
   "status": "proved",
   "theorems": [
    "C08_result",
    "C08_return_value_first",
    "C08_return_value_after",
    "C08_char_return_refuted"
   ],
   "note": "C08_char_return_refuted: char/C string return values are not first"
  },
  {
   "property": "C09",
   "status": "proved",
   "theorems": [
    "C09_flags",
    "C09_forced_flags"
   ],
   "note": ""
  },
  {
   "property": "C10",
   "status": "proved",
   "theorems": [
    "C10_unblocked",
    "C10_blocking",
    "C10_caught_exception_refuted"
   ],
   "note": "paths without caught exceptions; C10_caught_exception_refuted shows the violation on the other paths"
  },
  {
   "property": "C11",
   "status": "proved",
   "theorems": [
    "C11_reverse",
    "C11_proxy",
    "C11_fatal_refuted"
   ],
   "note": "C11_fatal_refuted: the fatal-error path of pure virtual methods prints the error after releasing the lock"
  },
  {
   "property": "C12",
   "status": "proved",
   "theorems": [
    "C12_reparse",
    "C12_idempotent",
    "C12_named_scopes",
    "C12_spacing",
    "C12_terminates",
    "C12_idempotent_refuted"
   ],
   "note": "C12_named_scopes discharges the proviso for type names without stray scope operators; C12_idempotent_refuted shows it is needed (`::::a`)"
  },
  {
   "property": "C13",
   "status": "proved",
   "theorems": [
    "C13_words",
    "C13_count",
    "C13_placed",
    "C13_meaning",
    "C13_canonical",
    "C13_parse",
    "C13_meaning_refuted"
   ],
   "note": "C13_meaning_refuted: `const char **` is outside the single-pointer class for which the meaning is preserved"
  },
  {
   "property": "C14",
   "status": "proved",
   "theorems": [
    "C14_total",
    "C14_flags",
    "C14_target",
    "C14_stripped",
    "C14_make_const",
    "C14_make_target_const",
    "C14_flags_refuted"
   ],
   "note": "C14_flags_refuted: `char**` is not reported as a pointer"
  },
  {
   "property": "C15",
   "status": "proved",
   "theorems": [
    "C15_found",
    "C15_spelling",
    "C15_refused",
    "C15_transformed",
    "C15_not_found",
    "C15_raised",
    "C15_build",
    "C15_build_transformed",
    "C15_build_unknown",
    "C15_found_refuted"
   ],
   "note": "for names registered without outer qualifiers; C15_found_refuted shows the need"
  },
  {
   "property": "C16",
   "status": "proved",
   "theorems": [
    "C16_links",
    "C16_terminates",
    "C16_resolution",
    "C16_typedefs",
    "C16_all_aliases_refuted"
   ],
   "note": "C16_all_aliases_refuted: an alias declared earlier can be unreachable"
  },
  {
   "property": "C17",
   "status": "proved",
   "theorems": [
    "C17_code",
    "C17_characters",
    "C17_identifier",
    "C17_unchanged",
    "C17_template",
    "C17_distinct",
    "C17_distinct_refuted",
    "C17_converters",
    "C17_converter_type",
    "C17_converter_type_refuted"
   ],
   "note": "C17_distinct_refuted, C17_converter_type_refuted: distinct types sharing one mangled name"
  },
  {
   "property": "C18",
   "status": "proved",
   "theorems": [
    "C18_function",
    "C18_type",
    "C18_atomic",
    "C18_script",
    "C18_pruned",
    "C18_errors",
    "C18_no_handler",
    "C18_offered",
    "C18_declared",
    "C18_offered_once_refuted",
    "C18_pruned_refuted"
   ],
   "note": "function bodies are assumed not to raise SkipWrapper themselves; C18_offered_once_refuted: a declined error of generation is offered twice; C18_pruned_refuted: overloads spread over several sections are excepted from C18_pruned"
  },
  {
   "property": "C19",
   "status": "proved",
   "theorems": [
    "C19_first",
    "C19_none",
    "C19_cases",
    "C19_delegate",
    "C19_dispatch",
    "C19_null_exception_refuted"
   ],
   "note": "for exceptions with a value; C19_null_exception_refuted shows the other case. C19_delegate ties the aggregator's model to the model of generate_body"
  },
  {
   "property": "C20",
   "status": "proved",
   "theorems": [
    "C20_normalize",
    "C20_survivors",
    "C20_generate",
    "C20_no_trace",
    "C20_rejected",
    "C20_single",
    "C20_row",
    "C20_row_sorted",
    "C20_row_alone",
    "C20_row_total",
    "C20_no_handler_refuted"
   ],
   "note": "C20_no_handler_refuted: without an error handler a difference in flags is an AttributeError"
  },
  {
   "property": "C21",
   "status": "proved",
   "theorems": [
    "C21_no_fault",
    "C21_no_fault_pending",
    "C21_settles",
    "C21_exclusive",
    "C21_delete_once",
    "C21_only_delete",
    "C21_cpp_keeps",
    "C21_no_leak",
    "C21_dies",
    "C21_return",
    "C21_transfer",
    "C21_by_reference_refuted",
    "C21_transfer_unowned_refuted",
    "C21_null_transfer_refuted",
    "C21_free_function_refuted",
    "C21_owned_later_refuted",
    "C21_init_twice_refuted",
    "C21_transfer_in_override_refuted",
    "C21_give_back_refuted",
    "C21_lent_refuted"
   ],
   "note": "All histories of construct/copy/return/argument/transfer/give-back/drop/ward/collector/virtual-call events that respect the contract of Spec/OwnSpec.v (allowed), including re-entrant events during destructors. Refuted theorems show why each clause of the contract is needed."
  },
  {
   "property": "C22",
   "status": "proved",
   "theorems": [
    "C22_count",
    "C22_count_pending",
    "C22_zero",
    "C22_enough",
    "C22_dies",
    "C22_return",
    "C22_unmanaged_refuted",
    "C22_transfer_argument_refuted",
    "C22_no_peekref_refuted"
   ],
   "note": "Same histories, reference counting policy. Refuted: caller_manages_return=False, transferred arguments with a registered wrapper, collector without peekref."
  },
  {
   "property": "C23",
   "status": "proved",
   "theorems": [
    "C23_entries",
    "C23_not_freed",
    "C23_same",
    "C23_new",
    "C23_event",
    "C23_tick",
    "C23_persists",
    "C23_constructed",
    "C23_entry_lost_refuted",
    "C23_collector_refuted"
   ],
   "note": "Refuted: a live wrapper's entry lost when another wrapper of the object is emptied; entries left behind by tp_clear."
  },
  {
   "property": "C24",
   "status": "proved",
   "theorems": [
    "C24_kept",
    "C24_added",
    "C24_once",
    "C24_persists",
    "C24_as_long",
    "C24_released",
    "C24_die_together",
    "C24_scan",
    "C24_explicit",
    "C24_call",
    "C24_no_dict_refuted",
    "C24_equal_refuted",
    "C24_precall_refuted"
   ],
   "note": "Both the generation of the relations and the code's effect on the heap. Refuted: without allow_subclassing nothing is kept; wards compared with ==."
  },
  {
   "property": "C25",
   "status": "proved",
   "theorems": [
    "C25_terminates",
    "C25_result",
    "C25_exact",
    "C25_nearest",
    "C25_fallback",
    "C25_nothing_known",
    "C25_root_refuted",
    "C25_static",
    "C25_elsewhere",
    "C25_lookups",
    "C25_unused",
    "C25_class_exact",
    "C25_class_sound",
    "C25_class_nearest"
   ],
   "note": "At the level of one type map and at the level of declared class hierarchies. Refuted: the class at the end of the single-inheritance line is not found."
  },
  {
   "property": "C26",
   "status": "proved",
   "theorems": [
    "C26_order",
    "C26_is_subclass",
    "C26_line",
    "C26_acyclic",
    "C26_hooks",
    "C26_once_refuted",
    "C26_derived_first_refuted"
   ],
   "note": "the two _refuted theorems: a shared ancestor is enumerated twice, and the order is not a linear extension of the hierarchy"
  },
  {
   "property": "C27",
   "status": "proved",
   "theorems": [
    "C27_abstract",
    "C27_line",
    "C27_constructor",
    "C27_helper",
    "C27_unwrapped",
    "C27_generated",
    "C27_stale_refuted",
    "C27_unwrapped_refuted",
    "C27_order_refuted",
    "C27_helper_unwrapped_refuted",
    "C27_helper_disabled_refuted"
   ],
   "note": "the _refuted theorems show the cached answer going stale, unwrappable methods without is_virtual, the effect of the breadth first order, and helper classes missing a method"
  },
  {
   "property": "C28",
   "status": "proved",
   "theorems": [
    "C28_lookup",
    "C28_unknown",
    "C28_full_name",
    "C28_namespace_again",
    "C28_namespace_new",
    "C28_typedef_refuted"
   ],
   "note": "C28_typedef_refuted: the short alias of a typedef is visible in enclosing modules under its unqualified name"
  },
  {
   "property": "C29",
   "status": "proved",
   "theorems": [
    "C29_placement",
    "C29_types",
    "C29_functions",
    "C29_own_section",
    "C29_includes",
    "C29_add_include",
    "C29_common_header",
    "C29_once",
    "C29_once_complete",
    "C29_section",
    "C29_begin_end",
    "C29_declare_once",
    "C29_overloads_refuted"
   ],
   "note": "C29_overloads_refuted: overloads of a function declared in another section follow the first one; C29_functions is for generation without an error handler (C18_pruned reduces the other case to it)"
  },
  {
   "property": "C30",
   "status": "proved",
   "theorems": [
    "C30_argument",
    "C30_exact",
    "C30_unchanged",
    "C30_wraps",
    "C30_other",
    "C30_missing",
    "C30_default",
    "C30_several",
    "C30_result",
    "C30_result_exact",
    "C30_result_unchanged",
    "C30_result_wraps",
    "C30_result_other",
    "C30_function_result",
    "C30_override_argument",
    "C30_output_parameter",
    "C30_round_trip",
    "C30_override_output",
    "C30_override_output_refuted",
    "C30_int8_refuted",
    "C30_int8_return_refuted",
    "C30_wrapper"
   ],
   "note": "Semantics of the handlers' code on unbounded integers. Refuted: int8_t& / int8_t* / int8_t return, output references of overrides. Not modelled: array code of UnsignedIntPtrParam, NULL default of IntPtrParam."
  },
  {
   "property": "C31",
   "status": "proved",
   "theorems": [
    "C31_exceptions"
   ],
   "note": ""
  },
  {
   "property": "C32",
   "status": "proved",
   "theorems": [
    "C32_convert",
    "C32_one_error",
    "C32_in_order",
    "C32_gathers",
    "C32_gathers_map",
    "C32_safe",
    "C32_construct",
    "C32_immutable",
    "C32_iteration",
    "C32_iterator_keeps_container",
    "C32_one_owner",
    "C32_not_dangling",
    "C32_no_leak",
    "C32_argument",
    "C32_returned",
    "C32_round_trip",
    "C32_integers",
    "C32_integers_back",
    "C32_second_init_refuted",
    "C32_second_init_iterator_refuted",
    "C32_uninitialised_refuted",
    "C32_shrinking_list_refuted",
    "C32_swapped_pair_refuted",
    "C32_failed_target_refuted",
    "C32_last_pair_wins_refuted"
   ],
   "note": "For every element type, comparison and hash placement (universally quantified), for nested containers and in every legal history of constructions, iterations, calls and reference drops; instantiated with the integer handlers of C30. Refuted: second __init__ leaks and breaks iterators, objects without __init__ crash, shrinking lists, key handlers that do not prepend swap the pair, failed conversions leave a partial target. Not modelled: queue, stack, priority_queue (their generated code does not compile)."
  },
  {
   "property": "C33",
   "status": "proved",
   "theorems": [
    "C33_function",
    "C33_binary",
    "C33_inplace",
    "C33_negative",
    "C33_unsupported",
    "C33_raises",
    "C33_again",
    "C33_unary_refuted",
    "C33_not_implemented_refuted",
    "C33_inplace_object_refuted",
    "C33_failed_refuted",
    "C33_inplace_class_refuted",
    "C33_inplace_again_refuted"
   ],
   "note": "For every table, line of inheritance, conversion and C++ operator (universally quantified), including Python's choice of the function (reflected operands, inheritance, in-place fallback). Refuted: classes with only unary operators, NotImplemented as the value of -x, in-place operators on the object itself, failed registrations, classes as right operands of in-place operators. Not modelled: C++ operators that throw; sequence slots tried after the number slots."
  },
  {
   "property": "C34",
   "status": "proved",
   "theorems": [
    "C34_not_overridden",
    "C34_overridden",
    "C34_pointer_restored"
   ],
   "note": "void concrete methods and non-void concrete methods; the case of a failing override is part of C34_overridden"
  },
  {
   "property": "C35",
   "status": "proved",
   "theorems": [
    "C35_setter"
   ],
   "note": ""
  },
  {
   "property": "C36",
   "status": "proved",
   "theorems": [
    "C36_inherited",
    "C36_refused",
    "C36_policy_line",
    "C36_no_policy_line",
    "C36_subclassing_line",
    "C36_creation",
    "C36_narrowing_root",
    "C36_registry",
    "C36_registry_shared",
    "C36_creation_policy_refuted",
    "C36_subclassing_refuted",
    "C36_policy_refuted",
    "C36_registry_refuted"
   ],
   "note": "the _refuted theorems: only the first parent counts; a policy introduced below the root is ignored for creation"
  },
  {
   "property": "C37",
   "status": "proved",
   "theorems": [
    "C37_tables",
    "C37_complete",
    "C37_twice",
    "C37_prefix_refuted"
   ],
   "note": "C37_prefix_refuted: the C prefixes of two modules of one tree can coincide; C37_complete assumes the error handler does not itself raise SkipWrapper"
  },
  {
   "property": "C38",
   "status": "proved",
   "theorems": [
    "C38_python_name",
    "C38_strip",
    "C38_c_name",
    "C38_custom_refuted"
   ],
   "note": "C38_custom_refuted: a custom name equal to the default one is treated as absent"
  },
  {
   "property": "C39",
   "status": "proved",
   "theorems": [
    "C39_compare",
    "C39_determined",
    "C39_hash",
    "C39_unsupported",
    "C39_not_equal_refuted",
    "C39_inherit_refuted",
    "C39_honest_refuted",
    "C39_alive_refuted"
   ],
   "note": "For every table, hierarchy and C++ operator, for operands that are alive and do not fake their __class__ (both needed: C39_alive_refuted, C39_honest_refuted). Refuted: != as the negation of ==; inheriting single operators. Not modelled: tp_richcompare/tp_hash given by the script, Python classes overriding the methods."
  },
  {
   "property": "C40",
   "status": "proved",
   "theorems": [
    "C40_len",
    "C40_getitem",
    "C40_setitem",
    "C40_contains",
    "C40_concat",
    "C40_repeat",
    "C40_iterate",
    "C40_index_refuted",
    "C40_delete_refuted",
    "C40_exception_refuted",
    "C40_leak_refuted",
    "C40_contains_refuted"
   ],
   "note": "For positions and counts that fit a C int (needed: C40_index_refuted). Refuted: del x[i] (crashes), the exceptions of __setitem__/__len__/__contains__ are replaced, a non-integer status is leaked, wide truth values are truncated. Not modelled: number slots tried before the sequence slots; containment by iteration for classes without __contains__."
  },
  {
   "property": "C41",
   "status": "proved",
   "theorems": [
    "C41_arrive",
    "C41_only",
    "C41_refused",
    "C41_out_of_range",
    "C41_defined",
    "C41_truth_refuted",
    "C41_float_default_refuted",
    "C41_names_refuted"
   ],
   "note": "For parameters whose variable names do not clash (needed: C41_names_refuted). Refuted: an argument whose truth value raises still reaches C++ as true (C41_truth_refuted); default values of float parameters are ignored. Trusted: the meaning given to the units of PyArg_ParseTupleAndKeywords, and UTF-8 as in CPython. Not modelled: arrays (array_length), Glib::ustring, objects that are numbers only through __index__ or __float__."
  },
  {
   "property": "C42",
   "status": "proved",
   "theorems": [
    "C42_results",
    "C42_text",
    "C42_echo",
    "C42_order_refuted"
   ],
   "note": "Refuted: a char or C string returned comes after the output parameters (C42_order_refuted), which the specification has to say. Not modelled: free_after_copy."
  },
  {
   "property": "C43",
   "status": "proved",
   "theorems": [
    "C43_taken",
    "C43_refused",
    "C43_nothing",
    "C43_range_refuted",
    "C43_leak_refuted",
    "C43_string_refuted"
   ],
   "note": "Refuted: references taken are not given back when a later argument is out of range (C43_leak_refuted); a string created for C++ is leaked when parsing fails (C43_string_refuted)."
  },
  {
   "property": "C44",
   "status": "proved",
   "theorems": [
    "C44_own",
    "C44_inherited",
    "C44_only",
    "C44_once",
    "C44_found",
    "C44_order",
    "C44_nearest",
    "C44_aim",
    "C44_two_declare_refuted",
    "C44_hidden_refuted",
    "C44_copy_refuted"
   ],
   "note": "For scripts that add no functions as methods and generate each class once. Refuted: names declared by two classes above a class with several parents, or hidden in it, and __copy__ of its second parent, are found by Python and called with a pointer to the wrong address. Python's lookup (C3 order, first entry of a table) is modelled from CPython."
  },
  {
   "property": "C45",
   "status": "proved",
   "theorems": [
    "C45_cpp_overridden",
    "C45_cpp",
    "C45_python_defined",
    "C45_python",
    "C45_super",
    "C45_super_back",
    "C45_protected",
    "C45_protected_refused",
    "C45_super_inherited_refuted",
    "C45_private_refuted",
    "C45_unknown_override_refuted"
   ],
   "note": "Model of calls of virtual methods from C++ (through the proxies of the helper class) and from Python (through method tables, wrappers and parent callers), on top of the models of C26/C27/C44. Three limits proved as _refuted: super() of an inherited method recurses, private virtuals are not run, overrides with unknown types are skipped."
  },
  {
   "property": "C46",
   "status": "proved",
   "theorems": [
    "C46_safe",
    "C46_alive",
    "C46_deleted",
    "C46_references",
    "C46_init",
    "C46_refused",
    "C46_argument",
    "C46_returned_kept",
    "C46_returned_argument",
    "C46_returned_new",
    "C46_identity",
    "C46_constructed_identity_refuted",
    "C46_init_again_refuted"
   ],
   "note": "Model of the run-time effects of the generated code on shared pointers, wrappers and registry, for a class without helper class and __copy__ (with them the generated code does not compile). Refuted: constructed instances are not registered; __init__ of a returned instance leaves a stale registry entry. Default values of such parameters are ignored."
  },
  {
   "property": "C47",
   "status": "proved",
   "theorems": [
    "C47_imports",
    "C47_bases",
    "C47_classes_from_elsewhere",
    "C47_exception_parents",
    "C47_found",
    "C47_nothing_else",
    "C47_missing_module",
    "C47_generates",
    "C47_type_names",
    "C47_base_in_a_submodule_refuted",
    "C47_second_base_in_a_submodule_refuted",
    "C47_static_attributes_base_in_a_submodule_refuted",
    "C47_parent_exception_in_a_submodule_refuted",
    "C47_nested_in_a_class_of_an_enclosing_module_refuted",
    "C47_nested_in_an_imported_class_refuted",
    "C47_nested_class_with_container_traits_refuted",
    "C47_class_missing_elsewhere_refuted",
    "C47_prefix_of_a_nested_enumeration_refuted"
   ],
   "note": "Initialisation code of whole module trees, executed with PyType_Ready as CPython does it; success, bases, contents, names; the order hypotheses are shown necessary by the _refuted theorems."
  },
  {
   "property": "C48",
   "status": "proved",
   "theorems": [
    "C48_declared",
    "C48_generates",
    "C48_generates_skipping",
    "C48_duplicates",
    "C48_read",
    "C48_write",
    "C48_read_only",
    "C48_skipped",
    "C48_absent",
    "C48_static_read",
    "C48_static_write",
    "C48_static_read_only",
    "C48_shared_type_refuted",
    "C48_second_parent_refuted",
    "C48_second_parent_static_refuted",
    "C48_static_by_instance_refuted",
    "C48_delete_refuted",
    "C48_method_hides_refuted",
    "C48_instance_and_static_refuted",
    "C48_not_implemented_refuted",
    "C48_same_custom_name_refuted"
   ],
   "note": "Declarations with mutable value types, generated getters, setters and tables, C names, and Python's lookup through types and metaclasses; read, write, constants, statics, generation and compilation. Refuted: shared ReturnValue, second parents, deletion, static by instance, hidden by a method."
  },
  {
   "property": "C49",
   "status": "proved",
   "theorems": [
    "C49_docstring",
    "C49_plain_docstring",
    "C49_generated",
    "C49_overloads",
    "C49_class",
    "C49_class_generated",
    "C49_module",
    "C49_again",
    "C49_quote_refuted",
    "C49_newline_refuted",
    "C49_backslash_refuted",
    "C49_overload_description_refuted"
   ],
   "note": "Text of every docstring field, a lexer of C++ string literals and Python's treatment of the text; round trip for arbitrary characters, descriptions, overloads. Refuted: unescaped quotes, newlines and backslashes; overloads without docstrings are not described."
  },
  {
   "property": "C50",
   "status": "proved",
   "theorems": [
    "C50_annotations",
    "C50_unused",
    "C50_total",
    "C50_parameter",
    "C50_return",
    "C50_function",
    "C50_indented_refuted",
    "C50_first_line_refuted",
    "C50_blanks_refuted",
    "C50_joined_refuted",
    "C50_flag_refuted",
    "C50_caller_owns_refuted",
    "C50_line_number_refuted"
   ],
   "note": "A backtracking matcher with the regular expressions as data, the walk up the file with Python indexing, the history of used lines, and the option parsers. Refuted: indented /* comments, first line of a file, blanks around =, joining lines, flags without value, caller_owns_return, line numbers of warnings."
  },
  {
   "property": "C51",
   "status": "proved",
   "theorems": [
    "C51_terminates",
    "C51_order",
    "C51_once",
    "C51_conversions",
    "C51_accounted",
    "C51_complete",
    "C51_chain_refuted",
    "C51_mutual_refuted",
    "C51_targets_refuted"
   ],
   "note": "model of the class part of _scan_namespace_types: queue, postponement, nested scopes, conversions; a chain of eleven classes in reverse order of names, and two classes converting to each other, are refused (C51_chain_refuted, C51_mutual_refuted); a conversion target behind a foreign one is lost (C51_targets_refuted)"
  },
  {
   "property": "C52",
   "status": "proved",
   "theorems": [
    "C52_added",
    "C52_script",
    "C52_pure",
    "C52_abstract",
    "C52_abstract_refuted",
    "C52_ignored_pure_refuted",
    "C52_ignored_constructor_refuted"
   ],
   "note": "model of _scan_class_methods; template arguments, comments and hooks left out; an ignored pure virtual method or a pure virtual operator leaves the class concrete (C52_ignored_pure_refuted, C52_abstract_refuted), and ignored default and copy constructors are declared all the same (C52_ignored_constructor_refuted)"
  },
  {
   "property": "C53",
   "status": "proved",
   "theorems": [
    "C53_script",
    "C53_memory",
    "C53_same",
    "C53_one_sink",
    "C53_clash_refuted"
   ],
   "note": "the text of the script, read and run with a small semantics of Python, does exactly the expected declarations; same multiset as memory, same order with one sink; refuted for colliding names of functions"
  },
  {
   "property": "C54",
   "status": "proved",
   "theorems": [
    "C54_value",
    "C54_function",
    "C54_method",
    "C54_constructor",
    "C54_class",
    "C54_attribute",
    "C54_list_refuted"
   ],
   "note": "the text of each call, with repr modelled character by character, is read by a reader of Python expressions as the same arguments; refuted for lists of classes outside throw and parent"
  },
  {
   "property": "C55",
   "status": "proved",
   "theorems": [
    "C55_scan",
    "C55_scans",
    "C55_meaning",
    "C55_same",
    "C55_instance_refuted",
    "C55_arguments_refuted",
    "C55_instance_name_refuted"
   ],
   "note": "Free functions of header files: order, one script call per function (function, method or constructor), annotations, template parameters and names of instances; memory = the script's calls with known types; refuted: template recognition by the first occurrence of the name, arguments of template instances, names for instances with several arguments."
  },
  {
   "property": "C56",
   "status": "proved",
   "theorems": [
    "C56_scan",
    "C56_meaning",
    "C56_scans",
    "C56_same",
    "C56_inplace_refuted",
    "C56_product_refuted"
   ],
   "note": "Operators of classes in header files: what each free operator and public member operator becomes in the script and in memory, as an equivalence with a declarative relation; refuted: in-place operators that return void and products that return numbers are dropped."
  },
  {
   "property": "C57",
   "status": "proved",
   "theorems": [
    "C57_apply",
    "C57_applies",
    "C57_meaning",
    "C57_complaints",
    "C57_later",
    "C57_template_names_refuted",
    "C57_destructor_refuted",
    "C57_old_name_refuted"
   ],
   "note": "Keyword arguments, complaints and the exception flag from the annotations of a class, as an equivalence with a declarative relation, with success iff readable; refuted: template_instance_names is complained about though it is used, a class without a listed destructor gets None for the visibility, python_name wins over custom_name when it comes first."
  },
  {
   "property": "C58",
   "status": "proved",
   "theorems": [
    "C58_scan",
    "C58_scans",
    "C58_memory",
    "C58_import_refuted",
    "C58_reserved_refuted"
   ],
   "note": "Enumerations of header files: the script is read back as the calls, in order, with success iff no comment lacks its text; refuted: import_from_module is in the script only, not in the call in memory; reserved names are left out in classes but not in namespaces."
  }
 ]
}