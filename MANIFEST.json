{
 "claims": [
  {
   "property": "C01",
   "status": "proved",
   "theorems": [
    "C01_located_complete",
    "C01_located_once",
    "C01_dig_for_items",
    "C01_raises_iff"
   ],
   "note": "Full property. `located` (spec) is shown to list exactly the reachable paths once; all three functions equal the filtered list; they raise iff the predicate raises somewhere."
  },
  {
   "property": "C02",
   "status": "proved",
   "theorems": [
    "C02_dig_for_item_first",
    "C02_breadth_first_refuted",
    "C02_top_level_first",
    "C02_dig_for_level",
    "C02_raising_predicate",
    "C02_stop_iteration"
   ],
   "note": "Exact answer for all searches, including raising predicates. Refuted: the docstring's breadth-first promise (C02_breadth_first_refuted). The statement was revised to what the code does; the first wording is kept in properties.jsonl under 'originally'."
  },
  {
   "property": "C03",
   "status": "proved",
   "theorems": [
    "C03_key_reference",
    "C03_value_reference",
    "C03_item_reference_refuted",
    "C03_item_reference_empty"
   ],
   "note": "Refuted: that match='item' accepts a constant (operator.eq receives three arguments). The statement was revised to what the code does; the first wording is kept in properties.jsonl under 'originally'."
  },
  {
   "property": "C04",
   "status": "proved",
   "theorems": [
    "C04_edit_exact",
    "C04_edit_deterministic",
    "C04_edit_terminates",
    "C04_unmatched_unchanged",
    "C04_edit_may_diverge"
   ],
   "note": "Exact relational characterisation (Edited), determinism, termination for non-deepening setters, frame for unmatched leaves, and a non-terminating example for every recursion depth. Values are trees: aliasing inside the mapping is not modelled."
  },
  {
   "property": "C05",
   "status": "proved",
   "theorems": [
    "C05_unnest_flat",
    "C05_unnest_copies",
    "C05_leaves",
    "C05_unnest_idempotent",
    "C05_unnest_one_per_leaf"
   ],
   "note": "Full property."
  },
  {
   "property": "C06",
   "status": "proved",
   "theorems": [
    "C06_unnest_injective",
    "C06_flat_form_determines_leaves",
    "C06_absent_escape_refuted",
    "C06_default_escape_refuted",
    "C06_escape_empty_key_refuted",
    "C06_escape_mixed_keys_refuted"
   ],
   "note": "Injectivity and determination proved for every escape with a character foreign to the keys. Refuted without the conditions, one witness each. The statement was revised to what the code does; the first wording is kept in properties.jsonl under 'originally'."
  },
  {
   "property": "C07",
   "status": "proved",
   "theorems": [
    "C07_to_records_named",
    "C07_to_records_default",
    "C07_to_records_too_few_names"
   ],
   "note": "Full property for named and default level names, and the StopIteration case. Non-modification of arguments is by construction of the model (the code copies leaf mappings; categories are never written)."
  },
  {
   "property": "C08",
   "status": "proved",
   "theorems": [
    "C08_rmerge_exact",
    "C08_merge_content",
    "C08_right_leaf_survives",
    "C08_left_leaf_survives"
   ],
   "note": "Full property; mtypes is honoured at the top level only, as the code does (see C09)."
  },
  {
   "property": "C09",
   "status": "proved",
   "theorems": [
    "C09_rmerge_identity",
    "C09_rmerge_idempotent",
    "C09_rmerge_assoc",
    "C09_rmerge_assoc_refuted",
    "C09_mtypes_all_depths_refuted"
   ],
   "note": "Refuted: associativity without compatibility, and that mtypes applies at all depths (the nested call drops it). The statement was revised to what the code does; the first wording is kept in properties.jsonl under 'originally'."
  },
  {
   "property": "C10",
   "status": "proved",
   "theorems": [
    "C10_insert_after_new",
    "C10_insert_after_absent_prior",
    "C10_insert_after_earlier_key",
    "C10_new_value_present_refuted",
    "C10_others_kept"
   ],
   "note": "Every case characterised. Refuted: that the result maps new_key to new_value whenever prior_key is present. The statement was revised to what the code does; the first wording is kept in properties.jsonl under 'originally'."
  },
  {
   "property": "C11",
   "status": "proved",
   "theorems": [
    "C11_set_then_get",
    "C11_history",
    "C11_read_missing",
    "C11_todict",
    "C11_todict_content"
   ],
   "note": "Full property. Values are trees (no aliasing)."
  },
  {
   "property": "C12",
   "status": "proved",
   "theorems": [
    "C12_get_from_string_keys",
    "C12_get_from_exact",
    "C12_get_from_found",
    "C12_nonstring_key_refuted",
    "C12_nested_values"
   ],
   "note": "Exact result for every key sequence (C12_get_from_exact). Refuted: that the default is returned for non-string keys. The statement was revised to what the code does; the first wording is kept in properties.jsonl under 'originally'."
  },
  {
   "property": "C13",
   "status": "proved",
   "theorems": [
    "C13_separate_by",
    "C13_separate_by_raises"
   ],
   "note": "Full property, including the identity test `is True`."
  },
  {
   "property": "C14",
   "status": "proved",
   "theorems": [
    "C14_hashdict_history",
    "C14_hashdict_is_dict",
    "C14_hashdict_stored",
    "C14_str",
    "C14_str_refuted",
    "C14_default_hash_refuted"
   ],
   "note": "Full property; the counterexample for the default hash is part of the property and proved as C14_default_hash_refuted."
  },
  {
   "property": "C15",
   "status": "proved",
   "theorems": [
    "C15_results",
    "C15_returns",
    "C15_same",
    "C15_iterator",
    "C15_reused_records",
    "C15_chunks",
    "C15_no_workers"
   ],
   "note": "Full property, for any schedule of worker completions. A result that never arrives is modelled as a map that does not return."
  },
  {
   "property": "C16",
   "status": "proved",
   "theorems": [
    "C16_unchunked",
    "C16_unchunked_returns",
    "C16_chunked",
    "C16_chunked_kept",
    "C16_chunked_exception",
    "C16_chunked_refuted",
    "C16_interrupt_alone",
    "C16_interrupt_pooled",
    "C16_interrupt_chunked"
   ],
   "note": "Full property; the loss of results in chunked mode is part of the statement, with the witness C16_chunked_refuted."
  },
  {
   "property": "C17",
   "status": "proved",
   "theorems": [
    "C17_consistent",
    "C17_monotone",
    "C17_reads_between",
    "C17_ready_while_working",
    "C17_terminate"
   ],
   "note": "Full property, also for flags read one at a time while workers go on."
  },
  {
   "property": "C18",
   "status": "proved",
   "theorems": [
    "C18_reindex",
    "C18_enumerate_as_mapping",
    "C18_listify",
    "C18_get_from_all"
   ],
   "note": "Full property."
  },
  {
   "property": "C19",
   "status": "proved",
   "theorems": [
    "C19_all",
    "C19_any",
    "C19_no_short_circuit",
    "C19_empty"
   ],
   "note": "Full property; containment and or/and are parameters of the model."
  },
  {
   "property": "C20",
   "status": "proved",
   "theorems": [
    "C20_intersection",
    "C20_intersection_raises",
    "C20_disjoint",
    "C20_two",
    "C20_three_share",
    "C20_iterators_come_out_empty"
   ],
   "note": "Full property."
  },
  {
   "property": "C21",
   "status": "proved",
   "theorems": [
    "C21_success",
    "C21_failure",
    "C21_bad_callback",
    "C21_interrupt",
    "C21_dontcare"
   ],
   "note": "Full property, over an arbitrary effect state; a failing callback is covered by C21_bad_callback."
  },
  {
   "property": "C22",
   "status": "proved",
   "theorems": [
    "C22_splat",
    "C22_argstop_unpacking",
    "C22_argstop_plain",
    "C22_argstop_negative",
    "C22_argstop_not_a_sequence",
    "C22_gmap",
    "C22_gmap_shortest",
    "C22_gmap_raises",
    "C22_filtern_first",
    "C22_filtern_none",
    "C22_filtern_calls",
    "C22_triggerize",
    "C22_naturals",
    "C22_catch_interaction",
    "C22_constant",
    "C22_is_it"
   ],
   "note": "Full property."
  },
  {
   "property": "C23",
   "status": "proved",
   "theorems": [
    "C23_pipeline",
    "C23_generator",
    "C23_empty"
   ],
   "note": "Full property."
  },
  {
   "property": "C24",
   "status": "proved",
   "theorems": [
    "C24_positions",
    "C24_unique",
    "C24_unchanged"
   ],
   "note": "Full property; C24_unique makes the argument list the only one meeting the specification."
  },
  {
   "property": "C25",
   "status": "proved",
   "theorems": [
    "C25_overrides",
    "C25_bare"
   ],
   "note": "Full property."
  },
  {
   "property": "C26",
   "status": "proved",
   "theorems": [
    "C26_step",
    "C26_pipe",
    "C26_insert",
    "C26_list",
    "C26_dict",
    "C26_writer",
    "C26_nowhere",
    "C26_in_time"
   ],
   "note": "Full property."
  },
  {
   "property": "C27",
   "status": "proved",
   "theorems": [
    "C27_forward",
    "C27_feedback_refuted"
   ],
   "note": "Full property; C27_feedback_refuted is the witness for feedback."
  },
  {
   "property": "C28",
   "status": "proved",
   "theorems": [
    "C28_captures",
    "C28_add_captures"
   ],
   "note": "Full property; steps and other sends are assumed not to write to the captures themselves."
  },
  {
   "property": "C29",
   "status": "proved",
   "theorems": [
    "C29_tracked",
    "C29_construct",
    "C29_track",
    "C29_track_twice",
    "C29_add_step",
    "C29_add_send",
    "C29_replaced_refuted"
   ],
   "note": "Full property; C29_replaced_refuted is the witness for replaced steps."
  },
  {
   "property": "C30",
   "status": "proved",
   "theorems": [
    "C30_add_step",
    "C30_names",
    "C30_sequence",
    "C30_numbered",
    "C30_reindex",
    "C30_default_refuted",
    "C30_reindex_refuted"
   ],
   "note": "Full property; C30_default_refuted and C30_reindex_refuted are the witnesses for the two exceptions."
  },
  {
   "property": "C31",
   "status": "proved",
   "theorems": [
    "C31_array",
    "C31_from_nothing",
    "C31_readable",
    "C31_succeeds",
    "C31_paused",
    "C31_document",
    "C31_paths",
    "C31_paths_refuted",
    "C31_json_round_trip"
   ],
   "note": "Full property, for any json.dumps (C31_array) and, with a model of json.dumps(indent=2) without floats, including that the file reads back as JSON. C31_paths_refuted: trackers that differ may share a file."
  },
  {
   "property": "C32",
   "status": "proved",
   "theorems": [
    "C32_failed_dump",
    "C32_never_recovers",
    "C32_crash",
    "C32_crash_unreadable",
    "C32_crash_before",
    "C32_crash_after",
    "C32_empty_file",
    "C32_clear_recovers",
    "C32_refuted"
   ],
   "note": "Full property; C32_refuted is the witness that logs do not survive a failed dump. Crashes: bytes reach the file in order (buffered writer)."
  },
  {
   "property": "C33",
   "status": "proved",
   "theorems": [
    "C33_history",
    "C33_clear",
    "C33_exc_report"
   ],
   "note": "Full property."
  },
  {
   "property": "C34",
   "status": "proved",
   "theorems": [
    "C34_open_overwrite",
    "C34_open_existing",
    "C34_exists_block",
    "C34_delete_block",
    "C34_missing_ok_refuted",
    "C34_half_made_block_refuted"
   ],
   "note": "All well-formed stores. Refuted: missing_ok (delete_block catches the wrong exception); recovery from a half-made block. Resource tracker and fd lifetime not modelled. The statement was revised to what the code does; the first wording is kept in properties.jsonl under 'originally'."
  },
  {
   "property": "C35",
   "status": "proved",
   "theorems": [
    "C35_round_trip",
    "C35_exists_ok_false",
    "C35_exists_ok_false_iff",
    "C35_unencodable"
   ],
   "note": "Full property; intervening commands are arbitrary lists of helper calls at other addresses."
  },
  {
   "property": "C36",
   "status": "proved",
   "theorems": [
    "C36_round_trip",
    "C36_out_of_range",
    "C36_inverse"
   ],
   "note": "Full property for the encoding; the callers encode before writing, so a rejected number changes nothing."
  },
  {
   "property": "C37",
   "status": "proved",
   "theorems": [
    "C37_refines_ordered_set",
    "C37_keys_present_once",
    "C37_position",
    "C37_swap_remove",
    "C37_value_refused"
   ],
   "note": "Full property, for non-empty non-bytes keys, a hash without collisions on the keys used and fewer than 2^40 operations (the lock counter is 5 bytes). Operations do not overlap; overlapping ones are C50-C53."
  },
  {
   "property": "C38",
   "status": "proved",
   "theorems": [
    "C38_empty_key_refuted",
    "C38_bytes_key_refuted"
   ],
   "note": "For every reached index. Refuted: that these keys behave like any other. The statement was revised to what the code does; the first wording is kept in properties.jsonl under 'originally'."
  },
  {
   "property": "C39",
   "status": "proved",
   "theorems": [
    "C39_add_crash_states",
    "C39_remove_crash_states",
    "C39_add_refuted",
    "C39_remove_refuted"
   ],
   "note": "The exact set of visible states, for every reached index and key (lock-free handle; with the lock a crash also blocks everyone, see C52). Refuted: that survivors see the index before or after the operation. The statement was revised to what the code does; the first wording is kept in properties.jsonl under 'originally'."
  },
  {
   "property": "C40",
   "status": "proved",
   "theorems": [
    "C40_close_empty",
    "C40_close_leaks_refuted"
   ],
   "note": "Refuted: that close() always leaves nothing behind. The statement was revised to what the code does; the first wording is kept in properties.jsonl under 'originally'."
  },
  {
   "property": "C41",
   "status": "proved",
   "theorems": [
    "C41_refines_dict",
    "C41_refines_dict_valued",
    "C41_items",
    "C41_entries",
    "C41_json_values"
   ],
   "note": "Full property; also histories with keys that have no value."
  },
  {
   "property": "C42",
   "status": "proved",
   "theorems": [
    "C42_locked_removal_refuted",
    "C42_valueless_removal_refuted",
    "C42_unlocked_removal",
    "C42_unlocked_exact"
   ],
   "note": "Refuted: that deletion returns. The statement was revised to what the code does; the first wording is kept in properties.jsonl under 'originally'."
  },
  {
   "property": "C43",
   "status": "proved",
   "theorems": [
    "C43_history",
    "C43_behaves_as_dict"
   ],
   "note": "Exact refinement of arbitrary histories through freshly attached handles, and dict answers for ordinary values. A missing key raises FileNotFoundError from get/[]; keys are non-empty, not bytes and outside the reserved 'index' space."
  },
  {
   "property": "C44",
   "status": "proved",
   "theorems": [
    "C44_get",
    "C44_get_default_refuted"
   ],
   "note": "The exact answer in every reachable state. Refuted: that get returns the default iff the key is missing. The statement was revised to what the code does; the first wording is kept in properties.jsonl under 'originally'."
  },
  {
   "property": "C45",
   "status": "proved",
   "theorems": [
    "C45_close",
    "C45_close_refuted"
   ],
   "note": "Both cases, which are exhaustive. Refuted: that close() always cleans up. The statement was revised to what the code does; the first wording is kept in properties.jsonl under 'originally'."
  },
  {
   "property": "C46",
   "status": "proved",
   "theorems": [
    "C46_existing_key",
    "C46_new_key_refuted"
   ],
   "note": "Refuted for new keys: that a failed assignment leaves the Notepad unchanged. The statement was revised to what the code does; the first wording is kept in properties.jsonl under 'originally'."
  },
  {
   "property": "C47",
   "status": "proved",
   "theorems": [
    "C47_apart_prefixes",
    "C47_extended_prefix_refuted"
   ],
   "note": "Refuted for extended prefixes. The statement was revised to what the code does; the first wording is kept in properties.jsonl under 'originally'."
  },
  {
   "property": "C48",
   "status": "proved",
   "theorems": [
    "C48_json_codec",
    "C48_json_history",
    "C48_history",
    "C48_get",
    "C48_get_default",
    "C48_keys",
    "C48_del",
    "C48_larger_refused",
    "C48_exists_ok_refuted",
    "C48_clear_refuted",
    "C48_scalar_refuted",
    "C48_locked_delete_refuted"
   ],
   "note": "Exact histories. Refuted: exists_ok, clear(), 0-d arrays, deletion with locking. The statement was revised to what the code does; the first wording is kept in properties.jsonl under 'originally'."
  },
  {
   "property": "C49",
   "status": "proved",
   "theorems": [
    "C49_history",
    "C49_same_length",
    "C49_other_length_refuted",
    "C49_cached_refuted"
   ],
   "note": "Refuted: that re-sticking always succeeds and that cached reads are current. The statement was revised to what the code does; the first wording is kept in properties.jsonl under 'originally'."
  },
  {
   "property": "C50",
   "status": "proved",
   "theorems": [
    "C50_mutual_exclusion",
    "C50_uninterleaved",
    "C50_interleaved_refuted",
    "C50_marker_refuted",
    "C50_stages_agree"
   ],
   "note": "Proved for all orderly schedules (no second entry and no marker removal during an entry), any number of processes, which include all schedules with uninterrupted entries; a counterexample schedule for each restriction dropped. Bound: fewer than 2^40 moves."
  },
  {
   "property": "C51",
   "status": "proved",
   "theorems": [
    "C51_slot_order",
    "C51_next_entrant",
    "C51_first_use_refuted"
   ],
   "note": "FIFO, no failures, clean release and immediate acquisition proved for all orderly schedules; first-use failure exhibited."
  },
  {
   "property": "C52",
   "status": "proved",
   "theorems": [
    "C52_dead_holder_blocks",
    "C52_dead_holder_orderly",
    "C52_entering_refuted",
    "C52_interleaved_refuted"
   ],
   "note": "Arbitrary interleaving after the death; the reachable state before it by uninterleaved entries, or by orderly entries with nobody entering at the death. Counterexamples otherwise."
  },
  {
   "property": "C53",
   "status": "proved",
   "theorems": [
    "C53_possible_results",
    "C53_last_writer_wins",
    "C53_atomic_refuted"
   ],
   "note": "Exact set of possible results and last-writer-wins for any number of processes and schedules; each failure is attained."
  },
  {
   "property": "C54",
   "status": "proved",
   "theorems": [
    "C54_history",
    "C54_name",
    "C54_twice",
    "C54_load",
    "C54_load_works",
    "C54_load_fails",
    "C54_call",
    "C54_unload",
    "C54_truthy_refuted"
   ],
   "note": "Full property; C54_truthy_refuted is the witness that a failing load may change code."
  },
  {
   "property": "C55",
   "status": "proved",
   "theorems": [
    "C55_errors",
    "C55_initially",
    "C55_call"
   ],
   "note": "Full property."
  },
  {
   "property": "C56",
   "status": "proved",
   "theorems": [
    "C56_construct",
    "C56_codechild",
    "C56_calls",
    "C56_reload",
    "C56_from_function",
    "C56_no_source"
   ],
   "note": "Full property."
  },
  {
   "property": "C57",
   "status": "proved",
   "theorems": [
    "C57_sort_chunked",
    "C57_numbers",
    "C57_doubles",
    "C57_processor",
    "C57_few_chunks",
    "C57_other_direction",
    "C57_last_edge",
    "C57_records",
    "C57_no_statistics",
    "C57_no_bounds",
    "C57_descending_refuted",
    "C57_rounding_refuted",
    "C57_overflow_refuted"
   ],
   "note": "Exact arithmetic unconditionally; any ordered numbers (IEEE doubles via SpecFloat) when the linspace edges cover the range. The _refuted theorems are the negative parts of the statement: descending order, rounding of max + 1, overflow of the range."
  },
  {
   "property": "C58",
   "status": "proved",
   "theorems": [
    "C58_read_between"
   ],
   "note": "Full property, for any numbers with a total preorder apart from NaN."
  },
  {
   "property": "C59",
   "status": "proved",
   "theorems": [
    "C59_int_downcast",
    "C59_empty"
   ],
   "note": "Full property."
  },
  {
   "property": "C60",
   "status": "proved",
   "theorems": [
    "C60_downcast",
    "C60_doubles",
    "C60_exact",
    "C60_no_finite",
    "C60_zeros",
    "C60_zeros_nonfinite",
    "C60_nillable_numpy",
    "C60_float_limits",
    "C60_truncation",
    "C60_bounds_refuted"
   ],
   "note": "For any numbers with a total preorder apart from NaN, instantiated with IEEE doubles and with exact rationals. The _refuted theorem is the negative part of the statement about bounds."
  },
  {
   "property": "C61",
   "status": "proved",
   "theorems": [
    "C61_first_columns",
    "C61_raises_iff",
    "C61_distinct",
    "C61_different_refuted"
   ],
   "note": "C61_different_refuted: the docstring's check of values never fires"
  },
  {
   "property": "C62",
   "status": "proved",
   "theorems": [
    "C62_frames",
    "C62_dict",
    "C62_value",
    "C62_null_refuted",
    "C62_no_rows",
    "C62_how",
    "C62_columns",
    "C62_columns_dict",
    "C62_columns_refuted"
   ],
   "note": "_refuted theorems are witnesses for the statement's exceptions"
  },
  {
   "property": "C63",
   "status": "proved",
   "theorems": [
    "C63_split_on",
    "C63_dupe",
    "C63_dupe_negative",
    "C63_squeeze",
    "C63_squeeze_bool",
    "C63_squeeze_aggregated",
    "C63_junction",
    "C63_junction_missing"
   ],
   "note": "proved for the exact statement"
  },
  {
   "property": "C64",
   "status": "proved",
   "theorems": [
    "C64_trim",
    "C64_decode",
    "C64_file",
    "C64_first_bytes",
    "C64_text",
    "C64_text_refuted",
    "C64_reader",
    "C64_statement_refuted",
    "C64_earlier_nulls_refuted"
   ],
   "note": "trim_label/head_file on bytes; UTF-8 validity proved equivalent to RFC 3629 encoding of scalar values"
  },
  {
   "property": "C65",
   "status": "proved",
   "theorems": [
    "C65_first_answer",
    "C65_loader",
    "C65_trimmer",
    "C65_listing",
    "C65_existence",
    "C65_sizes",
    "C65_one_read",
    "C65_one_text",
    "C65_fresh_refuted",
    "C65_own_list_refuted"
   ],
   "note": "memo tables over arbitrary histories of calls and file changes"
  },
  {
   "property": "C66",
   "status": "proved",
   "theorems": [
    "C66_digit",
    "C66_scraper",
    "C66_fields",
    "C66_order",
    "C66_raises_iff",
    "C66_bulk",
    "C66_bulk_raises"
   ],
   "note": "re.search and literal_eval are parameters"
  },
  {
   "property": "C67",
   "status": "proved",
   "theorems": [
    "C67_returns",
    "C67_deadlock",
    "C67_silent",
    "C67_result_iff",
    "C67_framing"
   ],
   "note": "two processes and a bounded byte queue; forked children"
  },
  {
   "property": "C68",
   "status": "proved",
   "theorems": [
    "C68_default_index",
    "C68_joined",
    "C68_repeated",
    "C68_no_columns",
    "C68_zero_column",
    "C68_index_refuted"
   ],
   "note": "For every frame; C68_index_refuted shows rows coming apart."
  },
  {
   "property": "C69",
   "status": "proved",
   "theorems": [
    "C69_typed_columns",
    "C69_series",
    "C69_unsigned_refuted",
    "C69_interval_refuted",
    "C69_repeated_refuted"
   ],
   "note": "_refuted theorems are witnesses for the statement's exceptions"
  },
  {
   "property": "C70",
   "status": "proved",
   "theorems": [
    "C70_smash",
    "C70_values",
    "C70_missing",
    "C70_value_column"
   ],
   "note": "proved for the exact statement"
  },
  {
   "property": "C71",
   "status": "proved",
   "theorems": [
    "C71_unpack",
    "C71_unpack_column",
    "C71_argument",
    "C71_argument_changed_refuted"
   ],
   "note": "_refuted theorems are witnesses for the statement's exceptions"
  },
  {
   "property": "C72",
   "status": "proved",
   "theorems": [
    "C72_unique",
    "C72_nulls_refuted"
   ],
   "note": "_refuted theorems are witnesses for the statement's exceptions"
  },
  {
   "property": "C73",
   "status": "proved",
   "theorems": [
    "C73_no_block",
    "C73_numbers",
    "C73_runs",
    "C73_fields_refuted",
    "C73_tuple_refuted"
   ],
   "note": "digits are 0-9"
  },
  {
   "property": "C74",
   "status": "proved",
   "theorems": [
    "C74_whole_characters",
    "C74_ascii",
    "C74_all",
    "C74_file",
    "C74_readable_refuted"
   ],
   "note": "text as UTF-8 bytes"
  },
  {
   "property": "C75",
   "status": "proved",
   "theorems": [
    "C75_history",
    "C75_shape",
    "C75_distinct",
    "C75_raises",
    "C75_flat",
    "C75_returns_refuted",
    "C75_quantity_refuted",
    "C75_hashable_refuted"
   ],
   "note": "the random generator and randval are parameters"
  },
  {
   "property": "C76",
   "status": "proved",
   "theorems": [
    "C76_timeout",
    "C76_spins_accumulate",
    "C76_close",
    "C76_close_keeps_exclusion_refuted",
    "C76_index_close_keeps_exclusion_refuted"
   ],
   "note": "Refuted: that closing a lock or an index leaves mutual exclusion intact. The delay between looks is not modelled."
  },
  {
   "property": "C77",
   "status": "proved",
   "theorems": [
    "C77_encodes",
    "C77_refused",
    "C77_round_trip",
    "C77_spaces",
    "C77_extra",
    "C77_no_text",
    "C77_shared",
    "C77_refuted"
   ],
   "note": "C77_refuted: tuples, keys that are not text and keys with the same text do not survive. The hypothesis on the codec in C48 is discharged by C48_json_codec, that in C41 by C41_json_values. Characters up to code point 255; no floats. C77_spaces, C77_extra, C77_no_text: what may come before and after the bytes."
  },
  {
   "property": "C78",
   "status": "proved",
   "theorems": [
    "C78_round_trip",
    "C78_text_refuted",
    "C78_lookalike",
    "C78_visible",
    "C78_mapping_refuted"
   ],
   "note": "C78_text_refuted: no text survives the codec by itself. literal_eval is modelled on the forms that repr writes (with blanks between tokens). C78_visible: how text is written within literals; C78_mapping_refuted: mappings with a class of their own."
  },
  {
   "property": "C79",
   "status": "proved",
   "theorems": [
    "C79_items",
    "C79_block_refuted",
    "C79_close",
    "C79_locked_close_refuted",
    "C79_leftover_refuted"
   ],
   "note": "C79_locked_close_refuted and C79_leftover_refuted show when close() does not do its work. C79_block_refuted: fetch=False."
  },
  {
   "property": "C80",
   "status": "proved",
   "theorems": [
    "C80_notepad",
    "C80_gridpaper",
    "C80_dump",
    "C80_stops_refuted",
    "C80_grid_dump",
    "C80_dots_refuted"
   ],
   "note": "C80_dots_refuted is the witness for lost values. C80_stops_refuted: closing with a key without a value; C80_grid_dump."
  },
  {
   "property": "C81",
   "status": "proved",
   "theorems": [
    "C81_records",
    "C81_brief",
    "C81_file",
    "C81_extended_single",
    "C81_extended",
    "C81_extended_refuted",
    "C81_no_groups_refuted",
    "C81_no_statistics_refuted"
   ],
   "note": "Cells are null, int, text or any other type with an equality; the _refuted theorems are the negative parts of the statement, for all records."
  },
  {
   "property": "C82",
   "status": "proved",
   "theorems": [
    "C82_survive",
    "C82_exit",
    "C82_attach_refuted",
    "C82_too_late_refuted",
    "C82_other_types_refuted",
    "C82_deactivate",
    "C82_twice",
    "C82_windows"
   ],
   "note": "C82_survive is the promise; the three _refuted theorems show what happens without the call, with a late call, and to other resource types"
  },
  {
   "property": "C83",
   "status": "proved",
   "theorems": [
    "C83_set",
    "C83_del_two",
    "C83_del",
    "C83_key_block_refuted",
    "C83_name_block_refuted",
    "C83_not_str_refuted"
   ],
   "note": "C83_set, C83_del_two and C83_del hold for every notepad; the _refuted theorems say for which keys the guard of __delitem__ and of __setitem__ lets the index be damaged"
  },
  {
   "property": "C84",
   "status": "proved",
   "theorems": [
    "C84_readers",
    "C84_atomic_refuted",
    "C84_removal_refuted",
    "C84_two_writers_refuted"
   ],
   "note": "C84_readers is proved for any writer history without removals; C84_atomic_refuted, C84_removal_refuted and C84_two_writers_refuted show that each stated defect occurs."
  },
  {
   "property": "C85",
   "status": "proved",
   "theorems": [
    "C85_serial",
    "C85_order",
    "C85_alone",
    "C85_interleaved_refuted"
   ],
   "note": "C85_serial: the operations take effect in the order of coming to the guarded section, for orderly schedules. C85_order: that order only grows at its end. C85_alone: the staged machine agrees with the sequential with-statement for one process. C85_interleaved_refuted: with interleaved entries both adds return 3 and a key is lost."
  },
  {
   "property": "C86",
   "status": "proved",
   "theorems": [
    "C86_no_deadlock"
   ],
   "note": "fuel stands for the unbounded loops; the theorem asks for more of it than moves were made"
  },
  {
   "property": "C87",
   "status": "proved",
   "theorems": [
    "C87_no_deadlock"
   ],
   "note": "fuel stands for the unbounded loops; the theorem asks for more of it than moves were made"
  },
  {
   "property": "C88",
   "status": "proved",
   "theorems": [
    "C88_flat",
    "C88_step",
    "C88_signal",
    "C88_inserts",
    "C88_steady",
    "C88_str",
    "C88_empty_refuted",
    "C88_neutral"
   ],
   "note": "Full. Nested inserts, failures and effects included; the flat form needs the inner compositions not optional and not empty, which C88_step and C88_empty_refuted show to be necessary."
  },
  {
   "property": "C89",
   "status": "proved",
   "theorems": [
    "C89_tracker",
    "C89_track",
    "C89_trivial"
   ],
   "note": "Full."
  },
  {
   "property": "C90",
   "status": "proved",
   "theorems": [
    "C90_dynamic",
    "C90_from_function",
    "C90_never",
    "C90_objects",
    "C90_str",
    "C90_docstring_refuted"
   ],
   "note": "Full. C90_docstring_refuted: digsource fails on a Dynamic loaded from its source, which its docstring says it is for."
  },
  {
   "property": "C91",
   "status": "proved",
   "theorems": [
    "C91_served",
    "C91_fair"
   ],
   "note": "orderly schedules only: without that rule the C50 refutations show what goes wrong, and C52 that a process which is given no more turns while it has the lock blocks the others; the loops of the code have no limit, the modelled ones more patience than there are turns"
  },
  {
   "property": "C92",
   "status": "proved",
   "theorems": [
    "C92_round_trip",
    "C92_equal",
    "C92_truncated",
    "C92_same_bytes",
    "C92_again",
    "C92_encodes"
   ],
   "note": "The pickler and the unpickler are CPython's (Modules/_pickle.c, protocol 5), the bytes of the examples are what Python 3.11 writes. Objects of other classes (arrays, instances) are outside."
  },
  {
   "property": "C93",
   "status": "proved",
   "theorems": [
    "C93_decoded",
    "C93_notepad",
    "C93_sticky",
    "C93_uniform",
    "C93_counter_refuted",
    "C93_unshared"
   ],
   "note": "Joins C92 with C43 and C49: their hypothesis that a value decodes to itself is proved for the default codec. C93_counter_refuted: the length check of Sticky with the sizes of pickled integers."
  },
  {
   "property": "C94",
   "status": "proved",
   "theorems": [
    "C94_done",
    "C94_fair"
   ],
   "note": "orderly schedules, as in C91; listing all keys is left out since the number of its operations depends on what it reads; fuel as in C91"
  },
  {
   "property": "C95",
   "status": "proved",
   "theorems": [
    "C95_seen_at_once",
    "C95_together",
    "C95_done",
    "C95_fair",
    "C95_alone",
    "C95_same_key_refuted",
    "C95_read_while_set_refuted"
   ],
   "note": "orderly schedules, as in C85 and C94; processes hold the notepad (attached) at the start, one operation each; keys, items and clear are left out of the concurrent part; fuel as in C91"
  },
  {
   "property": "C96",
   "status": "proved",
   "theorems": [
    "C96_logged_alike",
    "C96_lines",
    "C96_timeout_lines",
    "C96_found_lines",
    "C96_debug_only_logs_refuted",
    "C96_no_directory_nothing_done",
    "C96_others_go_on",
    "C96_acquire_fails",
    "C96_check_fails",
    "C96_sets_fail",
    "C96_deletes_fail",
    "C96_sets_fail_unlocked"
   ],
   "note": "The first wording is refuted for a missing directory (C96_debug_only_logs_refuted); what is true with and without the directory is proved."
  },
  {
   "property": "C97",
   "status": "proved",
   "theorems": [
    "C97_register",
    "C97_wait_free",
    "C97_sane_answers",
    "C97_first_stick_refuted"
   ],
   "note": "Linearizable for every interleaving once a value is posted and while nobody closes; wait-free. The original statement is refuted for the first stick and for close (C97_first_stick_refuted). A read or write of a whole block is one operation in the model."
  },
  {
   "property": "C98",
   "status": "proved",
   "theorems": [
    "C98_lock",
    "C98_lock_order",
    "C98_lock_refuted",
    "C98_register",
    "C98_small_ints",
    "C98_mixture",
    "C98_register_refuted"
   ],
   "note": "the claim without the bound on the counter, and for arbitrary encodings, is false: C98_lock_refuted, C98_register_refuted"
  },
  {
   "property": "C99",
   "status": "proved",
   "theorems": [
    "C99_returns",
    "C99_values",
    "C99_others",
    "C99_rounding",
    "C99_float",
    "C99_float_all",
    "C99_letter",
    "C99_keys",
    "C99_apart_refuted",
    "C99_flat",
    "C99_single",
    "C99_raises",
    "C99_default_refuted"
   ],
   "note": "That int and float keys differ, and that the defaults never raise, is refuted by witnesses; the statement says what is true."
  },
  {
   "property": "C100",
   "status": "proved",
   "theorems": [
    "C100_notepad",
    "C100_one",
    "C100_same",
    "C100_never_fails",
    "C100_gridpaper",
    "C100_gridpaper_refuted",
    "C100_sticky",
    "C100_sticky_read",
    "C100_sticky_refuted",
    "C100_stack",
    "C100_name",
    "C100_stack_refuted",
    "C100_stack_directory_refuted"
   ],
   "note": "The claims that every GridPaper can be printed, that a Sticky prints what is at its address and that the text determines the stack are refuted with witnesses; the statement says what holds."
  },
  {
   "property": "C101",
   "status": "proved",
   "theorems": [
    "C101_passes",
    "C101_hangs",
    "C101_receive_first",
    "C101_silent",
    "C101_silent_hangs",
    "C101_endless",
    "C101_blocking",
    "C101_wrapper",
    "C101_child_ends",
    "C101_child_waits",
    "C101_close",
    "C101_close_refuted"
   ],
   "note": "That receiving is enough for closing is refuted with a witness; the statement says what holds."
  },
  {
   "property": "C102",
   "status": "proved",
   "theorems": [
    "C102_readers",
    "C102_writers"
   ],
   "note": "Orderly interleavings as in C85 (while one process takes its slot and places its lock no other takes a slot or removes a marker); single operations on blocks are atomic (C98). With removals readers can fail in other ways (C84)."
  },
  {
   "property": "C103",
   "status": "proved",
   "theorems": [
    "C103_json",
    "C103_refused",
    "C103_kept",
    "C103_plain",
    "C103_twice",
    "C103_calendar",
    "C103_instant",
    "C103_one_instant",
    "C103_months",
    "C103_years",
    "C103_duration",
    "C103_python_refuted",
    "C103_inside_refuted",
    "C103_unit_refuted"
   ],
   "note": "As first worded (every scalar becomes an object of Python that json.dumps accepts, its value kept) it is false: C103_python_refuted (long doubles), C103_inside_refuted (lists), C103_unit_refuted (nanoseconds and picoseconds); the statement now says exactly which do."
  },
  {
   "property": "C104",
   "status": "proved",
   "theorems": [
    "C104_cells",
    "C104_fails",
    "C104_concat",
    "C104_parts_refuted"
   ],
   "note": "As first worded (parts can be treated separately) it is false: C104_parts_refuted; the statement now says what holds."
  },
  {
   "property": "C105",
   "status": "proved",
   "theorems": [
    "C105_misfit",
    "C105_plain",
    "C105_frames",
    "C105_never",
    "C105_raises",
    "C105_handler",
    "C105_lists_refuted"
   ],
   "note": "As first worded (columns of equal lists are constant) it is false: C105_lists_refuted; the statement now says what happens to lists."
  },
  {
   "property": "C106",
   "status": "proved",
   "theorems": [
    "C106_ends",
    "C106_missed_refuted",
    "C106_twice_refuted",
    "C106_state_refuted",
    "C106_fails_refuted"
   ],
   "note": "The first wording is refuted: listings lack keys (C106_missed_refuted), repeat them (C106_twice_refuted), are no state of the index (C106_state_refuted); both exceptions happen (C106_fails_refuted). C106_ends is what holds."
  }
 ]
}