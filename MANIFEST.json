{
 "claims": [
  {
   "property": "C01",
   "status": "proved",
   "theorems": [
    "C01_builder_keeps_entries"
   ],
   "note": "for every list of identifiers and rows"
  },
  {
   "property": "C02",
   "status": "proved",
   "theorems": [
    "C02_builder_rejects_exactly_malformed"
   ],
   "note": ""
  },
  {
   "property": "C03",
   "status": "proved",
   "theorems": [
    "C03_position_agrees_with_order"
   ],
   "note": ""
  },
  {
   "property": "C04",
   "status": "proved",
   "theorems": [
    "C04_valid_names_are_identifiers"
   ],
   "note": ""
  },
  {
   "property": "C05",
   "status": "proved",
   "theorems": [
    "C05_equality_is_names_and_rows"
   ],
   "note": ""
  },
  {
   "property": "C06",
   "status": "proved",
   "theorems": [
    "C06_conversions_are_exact",
    "C06_conversions_return_or_panic"
   ],
   "note": ""
  },
  {
   "property": "C07",
   "status": "partial",
   "theorems": [
    "C07_count_and_iterate_refuted",
    "C07_count_and_iterate_partial"
   ],
   "note": "false for labels with zero names (refuted); proved for labels with at least one name"
  },
  {
   "property": "C08",
   "status": "partial",
   "theorems": [
    "C08_after_rejections",
    "C08_rejected_duplicate_refuted",
    "C08_rejected_row_partial"
   ],
   "note": "false for duplicates (refuted, values are extended before the check); what the labels are after any rejected rows is proved for all sequences: the result is the labels which were added exactly if there was no duplicate, and positions agree with entries exactly if all duplicates are after the last accepted row"
  },
  {
   "property": "C09",
   "status": "proved",
   "theorems": [
    "C09_block_accepted_iff_shapes_agree",
    "C09_refused_block_is_an_error"
   ],
   "note": "the array must answer its shape callback; label sets with zero variables make TensorBlock::new panic, see C07"
  },
  {
   "property": "C10",
   "status": "proved",
   "theorems": [
    "C10_gradient_accepted_iff_compatible"
   ],
   "note": "for parameter names without NUL byte, see C11"
  },
  {
   "property": "C11",
   "status": "partial",
   "theorems": [
    "C11_add_gradient_frame",
    "C11_nul_parameter_refuted",
    "C11_nul_parameter",
    "C11_after_the_panic"
   ],
   "note": "proved for parameter names without NUL byte; with a NUL byte add_gradient panics after inserting (refuted), and what is left is proved for all blocks"
  },
  {
   "property": "C12",
   "status": "proved",
   "theorems": [
    "C12_block_invariant"
   ],
   "note": ""
  },
  {
   "property": "C13",
   "status": "proved",
   "theorems": [
    "C13_tensor_map_accepted_iff_homogeneous",
    "C13_refused_tensor_map_is_an_error"
   ],
   "note": ""
  },
  {
   "property": "C14",
   "status": "proved",
   "theorems": [
    "C14_blocks_matching_exact"
   ],
   "note": ""
  },
  {
   "property": "C15",
   "status": "proved",
   "theorems": [
    "C15_block_matching_unambiguous",
    "C15_full_key_selects_its_block"
   ],
   "note": ""
  },
  {
   "property": "C16",
   "status": "proved",
   "theorems": [
    "C16_iteration_pairs_keys_and_blocks"
   ],
   "note": ""
  },
  {
   "property": "C17",
   "status": "proved",
   "theorems": [
    "C17_keys_to_samples_new_keys",
    "C17_keys_to_properties_new_keys"
   ],
   "note": ""
  },
  {
   "property": "C18",
   "status": "proved",
   "theorems": [
    "C18_keys_to_samples_keeps_values",
    "C18_keys_to_samples_single_origin",
    "C18_one_value_per_labels",
    "C18_keys_to_samples_names"
   ],
   "note": ""
  },
  {
   "property": "C19",
   "status": "proved",
   "theorems": [
    "C19_keys_to_samples_keeps_gradients",
    "C19_keys_to_samples_gradient_single_origin",
    "C19_one_gradient_value_per_labels",
    "C19_keys_to_samples_gradient_samples",
    "C19_keys_to_samples_gradient_indices"
   ],
   "note": "gradient components must agree across merged blocks, or the build must be a debug build (see C31)"
  },
  {
   "property": "C20",
   "status": "proved",
   "theorems": [
    "C20_keys_to_samples_order",
    "C20_keys_to_properties_order"
   ],
   "note": ""
  },
  {
   "property": "C21",
   "status": "proved",
   "theorems": [
    "C21_keys_to_properties_keeps_values",
    "C21_keys_to_properties_names"
   ],
   "note": ""
  },
  {
   "property": "C22",
   "status": "proved",
   "theorems": [
    "C22_keys_to_properties_properties",
    "C22_keys_to_properties_keeps_listed_values"
   ],
   "note": ""
  },
  {
   "property": "C23",
   "status": "proved",
   "theorems": [
    "C23_keys_to_properties_keeps_gradients",
    "C23_keys_to_properties_gradient_samples",
    "C23_keys_to_properties_gradient_indices"
   ],
   "note": "gradient components must agree across merged blocks, or the build must be a debug build without explicit rows (see C31)"
  },
  {
   "property": "C24",
   "status": "proved",
   "theorems": [
    "C24_failed_keys_to_samples_changes_nothing",
    "C24_failed_keys_to_properties_changes_nothing"
   ],
   "note": ""
  },
  {
   "property": "C25",
   "status": "proved",
   "theorems": [
    "C25_keys_to_samples_well_formed",
    "C25_keys_to_properties_well_formed"
   ],
   "note": ""
  },
  {
   "property": "C26",
   "status": "partial",
   "theorems": [
    "C26_any_order_in_samples",
    "C26_any_order_in_properties",
    "C26_order_of_the_keys",
    "C26_moved_names_in_samples_partial",
    "C26_moved_names_in_properties_partial",
    "C26_moved_names_in_samples_refuted",
    "C26_moved_names_in_properties_refuted"
   ],
   "note": "false when the variables are not listed in key order (refuted); proved when they are. For any order, what is read is proved, and the values are right exactly for the keys which have the same values in both orders"
  },
  {
   "property": "C27",
   "status": "partial",
   "theorems": [
    "C27_components_keep_values_partial",
    "C27_components_keep_gradients_partial",
    "C27_components_labels",
    "C27_first_of_three_components_refuted",
    "C27_where_values_are",
    "C27_where_gradients_are",
    "C27_right_labels_partial",
    "C27_wrong_labels"
   ],
   "note": "False for the first of three components (refuted, F1). Where each element is found is proved for all components (found_as), for values and gradients; the labels are right exactly when nothing is exchanged: at most one component after the moved one, or a single entry in the last component or in all those between."
  },
  {
   "property": "C28",
   "status": "partial",
   "theorems": [
    "C28_components_all_or_nothing_partial",
    "C28_components_found_succeeds_partial",
    "C28_unknown_component_changes_nothing",
    "C28_shared_name_refuted",
    "C28_failing_array_refuted",
    "C28_shared_name",
    "C28_after_failure"
   ],
   "note": "false when the component and a property share a name, or when an array refuses a call (both refuted); proved otherwise. What is left after a shared name is given exactly, and which blocks are changed by any failure"
  },
  {
   "property": "C29",
   "status": "proved",
   "theorems": [
    "C29_components_keep_invariant"
   ],
   "note": ""
  },
  {
   "property": "C30",
   "status": "partial",
   "theorems": [
    "C30_moving_keys_does_not_panic_partial",
    "C30_out_of_range_gradient_samples_refuted",
    "C30_out_of_range_gradient_samples_properties_refuted",
    "C30_no_property_refuted",
    "C30_shared_name_refuted",
    "C30_no_block_refuted",
    "C30_no_variable_refuted"
   ],
   "note": "false (refuted in six ways); proved when gradient samples are in range, arrays answer, there are blocks, properties and variables, and no names are shared, see also C52 and C53"
  },
  {
   "property": "C31",
   "status": "partial",
   "theorems": [
    "C31_debug_samples_refuses_mixed_components_partial",
    "C31_debug_properties_refuses_mixed_components_partial",
    "C31_release_samples_refuted",
    "C31_release_properties_refuted"
   ],
   "note": "proved for debug builds; false in release builds (refuted)"
  },
  {
   "property": "C32",
   "status": "proved",
   "theorems": [
    "C32_identifiers_are_stable",
    "C32_names_are_found"
   ],
   "note": "calls of the C API are atomic in the model: the registry is behind a lock in the code"
  },
  {
   "property": "C33",
   "status": "partial",
   "theorems": [
    "C33_names_fit_in_the_buffer_partial",
    "C33_buffer_size_error_refuted",
    "C33_empty_buffer_refuted"
   ],
   "note": "false for small buffers: the status is EQS_INVALID_PARAMETER_ERROR, and length 0 writes out of the buffer in release builds (both refuted); proved with this status for all other buffers"
  },
  {
   "property": "C34",
   "status": "proved",
   "theorems": [
    "C34_success_means_success",
    "C34_status_is_the_error",
    "C34_last_error_message"
   ],
   "note": ""
  },
  {
   "property": "C35",
   "status": "partial",
   "theorems": [
    "C35_no_unwinding_partial",
    "C35_unwinds_exactly_for_nul_partial",
    "C35_load_unwinds_refuted"
   ],
   "note": "false for messages with NUL, coming from a file (refuted); proved for all other functions, and the condition is exact"
  },
  {
   "property": "C36",
   "status": "proved",
   "theorems": [
    "C36_labels_round_trip",
    "C36_accepted_labels",
    "C36_labels_without_variables",
    "C36_position_of_a_row"
   ],
   "note": "labels without variables become empty labels whatever their count"
  },
  {
   "property": "C37",
   "status": "proved",
   "theorems": [
    "C37_block_labels_and_data"
   ],
   "note": "for blocks of programs using arrays which answer their callbacks (ordinary) and did not have undefined behaviour before"
  },
  {
   "property": "C38",
   "status": "partial",
   "theorems": [
    "C38_blocks_matching_partial",
    "C38_small_buffer_refuted"
   ],
   "note": "false for small buffers: internal error (index out of bounds) and count is overwritten (refuted); proved otherwise, with the exact content of the buffer in all cases"
  },
  {
   "property": "C39",
   "status": "proved",
   "theorems": [
    "C39_arrays_are_destroyed_once"
   ],
   "note": "for programs without undefined behaviour, see C58"
  },
  {
   "property": "C40",
   "status": "proved",
   "theorems": [
    "C40_same_block_twice",
    "C40_blocks_are_moved"
   ],
   "note": "for ordinary arrays; null block pointers in the list are undefined behaviour"
  },
  {
   "property": "C41",
   "status": "proved",
   "theorems": [
    "C41_header_round_trip",
    "C41_header_can_be_written"
   ],
   "note": "for ASCII type descriptors and lengths of 64 bits; the parser of the py_literal crate is modelled for the syntax it writes"
  },
  {
   "property": "C42",
   "status": "proved",
   "theorems": [
    "C42_header_layout"
   ],
   "note": ""
  },
  {
   "property": "C43",
   "status": "proved",
   "theorems": [
    "C43_labels_round_trip"
   ],
   "note": "for labels with at least one name, values of 32 bits, and a header shorter than 4 GiB"
  },
  {
   "property": "C44",
   "status": "proved",
   "theorems": [
    "C44_data_round_trip",
    "C44_any_array"
   ],
   "note": "for arrays of less than 2^63 bytes"
  },
  {
   "property": "C45",
   "status": "proved",
   "theorems": [
    "C45_truncated_data_refused",
    "C45_truncated_labels_refused",
    "C45_extended_data_refused",
    "C45_extended_labels_refused"
   ],
   "note": ""
  },
  {
   "property": "C46",
   "status": "proved",
   "theorems": [
    "C46_load_after_save",
    "C46_any_array",
    "C46_saved_when_readable"
   ],
   "note": "for tensor maps whose data can be read (needed, see C46_saved_when_readable and C71) and parameters without NUL byte; the ZIP container is not modelled (an archive is a list of paths and contents)"
  },
  {
   "property": "C47",
   "status": "proved",
   "theorems": [
    "C47_paths_are_different",
    "C47_parameters_recovered"
   ],
   "note": ""
  },
  {
   "property": "C48",
   "status": "partial",
   "theorems": [
    "C48_load_never_panics_refuted",
    "C48_load_returns_partial",
    "C48_header_never_panics"
   ],
   "note": "false (refuted); proved for archives without the seven mistakes which make it panic"
  },
  {
   "property": "C49",
   "status": "partial",
   "theorems": [
    "C49_after_failure",
    "C49_failed_reshape_loses_data_refuted",
    "C49_reshape_keeps_elements_partial",
    "C49_other_sizes_are_refused"
   ],
   "note": "false after a failure (refuted, the data is lost: the array always has shape [0] then); successes keep all elements"
  },
  {
   "property": "C50",
   "status": "partial",
   "theorems": [
    "C50_different_origins_refuted",
    "C50_same_origin_samples_partial",
    "C50_same_origin_properties_partial"
   ],
   "note": "false for tensor maps with several origins (refuted); proved when all blocks have the same origin"
  },
  {
   "property": "C51",
   "status": "proved",
   "theorems": [
    "C51_keys_to_samples_order",
    "C51_keys_to_properties_order",
    "C51_components_to_properties_order"
   ],
   "note": "for successful calls, which succeed for all orders or for none; which error is returned, and what a failing components_to_properties leaves, can depend on the order"
  },
  {
   "property": "C52",
   "status": "proved",
   "theorems": [
    "C52_keys_to_samples_succeeds_when_possible"
   ],
   "note": "for tensor maps whose arrays answer and have one kind, whose gradient samples are in range, with at least one block, and moved names which are not names of the samples; the last hypotheses are needed, see C30"
  },
  {
   "property": "C53",
   "status": "proved",
   "theorems": [
    "C53_keys_to_properties_succeeds_when_possible"
   ],
   "note": "for tensor maps whose arrays answer and have one kind, whose gradient samples are in range, with at least one block, and moved names which are not names of the properties, and blocks with at least one property; the last hypotheses are needed, see C30"
  },
  {
   "property": "C54",
   "status": "proved",
   "theorems": [
    "C54_loaded_tensor_is_valid",
    "C54_loaded_labels_are_valid"
   ],
   "note": ""
  },
  {
   "property": "C55",
   "status": "proved",
   "theorems": [
    "C55_everything_is_well_formed"
   ],
   "note": "for ordinary arrays, without undefined behaviour before, see C58"
  },
  {
   "property": "C56",
   "status": "proved",
   "theorems": [
    "C56_calls_change_their_arguments_only"
   ],
   "note": ""
  },
  {
   "property": "C57",
   "status": "proved",
   "theorems": [
    "C57_failed_calls_change_nothing"
   ],
   "note": ""
  },
  {
   "property": "C58",
   "status": "proved",
   "theorems": [
    "C58_memory_safety"
   ],
   "note": "undefined behaviour as far as it is modelled: see DESIGN.md, section 4"
  },
  {
   "property": "C59",
   "status": "proved",
   "theorems": [
    "C59_save_then_load"
   ],
   "note": "for tensor maps which fit in memory; the listing of the archive has the files of the archive in any order"
  },
  {
   "property": "C60",
   "status": "proved",
   "theorems": [
    "C60_blocks_are_created"
   ],
   "note": "for labels with at least one variable and arrays which answer their shape callback"
  },
  {
   "property": "C61",
   "status": "proved",
   "theorems": [
    "C61_gradients_are_added"
   ],
   "note": "for labels with at least one variable, arrays which answer their callbacks, and programs where components_to_properties never failed (C57)"
  },
  {
   "property": "C62",
   "status": "proved",
   "theorems": [
    "C62_blocks_are_copied"
   ],
   "note": "for arrays which answer or refuse a copy; the contents of a copy made by foreign code is not modelled"
  },
  {
   "property": "C63",
   "status": "proved",
   "theorems": [
    "C63_gradients_are_listed"
   ],
   "note": "for programs where components_to_properties never failed (C57)"
  },
  {
   "property": "C64",
   "status": "proved",
   "theorems": [
    "C64_keys_are_read",
    "C64_blocks_are_found_by_id"
   ],
   "note": "the error for an index out of range is EQS_INTERNAL_ERROR"
  },
  {
   "property": "C65",
   "status": "proved",
   "theorems": [
    "C65_keys_are_moved_to_samples",
    "C65_keys_are_moved_to_properties",
    "C65_components_are_moved_to_properties"
   ],
   "note": "for labels with at least one variable"
  },
  {
   "property": "C66",
   "status": "proved",
   "theorems": [
    "C66_blocks_are_freed",
    "C66_tensor_maps_are_freed",
    "C66_freeing_null"
   ],
   "note": ""
  },
  {
   "property": "C67",
   "status": "proved",
   "theorems": [
    "C67_saved_archive_conforms",
    "C67_labels_file",
    "C67_data_file"
   ],
   "note": "the container (ZIP) is abstracted as a list of paths with their content"
  },
  {
   "property": "C68",
   "status": "proved",
   "theorems": [
    "C68_conforming_archives_load",
    "C68_literals",
    "C68_headers"
   ],
   "note": "the container (ZIP) is abstracted as a list of paths with their content. The tensor map must fit in memory, its gradient parameters must be names a C program can give, and none of its arrays is an EmptyArray. The grammar has the Python literals which appear in NPY headers: no escapes in strings, no signs, no other bases"
  },
  {
   "property": "C69",
   "status": "proved",
   "theorems": [
    "C69_same_programs",
    "C69_created"
   ],
   "note": "for arrays without gaps nor overlaps, as all operations make them; an array is not moved to itself, and after a failing move_samples_from the output is destroyed, as all callers do"
  },
  {
   "property": "C70",
   "status": "proved",
   "theorems": [
    "C70_keys_to_samples_readable",
    "C70_keys_to_properties_readable"
   ],
   "note": ""
  },
  {
   "property": "C71",
   "status": "partial",
   "theorems": [
    "C71_readable_after_moving_components_refuted",
    "C71_last_two_components",
    "C71_readable_iff"
   ],
   "note": "false (refuted): with one property, moving the component before last exchanges two axes in memory; the exact condition is proved for any component (C71_readable_iff)"
  },
  {
   "property": "C72",
   "status": "proved",
   "theorems": [
    "C72_saved_with_numpy_iff",
    "C72_numpy_archive_conforms",
    "C72_numpy_archive_loads",
    "C72_numpy_archive_loads_iff"
   ],
   "note": "numpy is a parameter which follows the NPY format (follows_format); the container (ZIP) is abstracted as a list of paths with their content. The tensor map must fit in memory and its gradient parameters must be names a C program can give"
  },
  {
   "property": "C73",
   "status": "proved",
   "theorems": [
    "C73_numpy_loads_conforming",
    "C73_numpy_loads_saved"
   ],
   "note": "numpy is a parameter which follows the NPY format (follows_format); the container (ZIP) is abstracted as a list of paths with their content. The hypotheses on the endianness and on the size of headers are needed, see C75"
  },
  {
   "property": "C74",
   "status": "proved",
   "theorems": [
    "C74_numpy_round_trip"
   ],
   "note": "numpy is a parameter which follows the NPY format (follows_format); the container (ZIP) is abstracted as a list of paths with their content. Headers must not be larger than what numpy accepts"
  },
  {
   "property": "C75",
   "status": "partial",
   "theorems": [
    "C75_loaded_by_the_library_refuted",
    "C75_loaded_by_numpy_refuted"
   ],
   "note": "false (refuted): arrays in Fortran order are refused by the library, labels with the other endianness are read with their bytes reversed by numpy. C72 and C73 say exactly when archives can be exchanged"
  },
  {
   "property": "C76",
   "status": "partial",
   "theorems": [
    "C76_labels_as_seen_partial",
    "C76_labels_layout_iff",
    "C76_slice_refuted",
    "C76_fields_refuted",
    "C76_reversed_refuted"
   ],
   "note": "proved for labels made without labels[::step] and labels[[\"a\", \"b\"]], with the exact condition on the layout in memory; false for the other ones (refuted): the library reads other entries, or after the end of the array"
  },
  {
   "property": "C77",
   "status": "partial",
   "theorems": [
    "C77_labels_of_integers_partial",
    "C77_labels_are_wrapped",
    "C77_values_refuted"
   ],
   "note": "proved for 32-bit integers; other integers are reduced modulo 2^32 (proved), so the values change (refuted)"
  },
  {
   "property": "C78",
   "status": "partial",
   "theorems": [
    "C78_labels_of_the_library",
    "C78_position_partial",
    "C78_position_in_parts",
    "C78_large_integers_refuted",
    "C78_empty_labels_refuted"
   ],
   "note": "proved for 32-bit integers and labels with entries; false for other integers, which are reduced modulo 2^32, and for labels without entries, where there is an exception (both refuted)"
  },
  {
   "property": "C79",
   "status": "partial",
   "theorems": [
    "C79_selection_with_keywords_partial",
    "C79_selection_with_an_index",
    "C79_selection_with_labels_partial",
    "C79_selection_with_fields_refuted"
   ],
   "note": "proved for keywords (32-bit integers), indexes, and labels which are packed in memory; false for labels[[\"a\"]] (refuted) Keywords with the name of another argument (self, __return_selection) are excluded, and refuted by C103_self_refuted."
  },
  {
   "property": "C80",
   "status": "partial",
   "theorems": [
    "C80_names_of_origins_partial",
    "C80_long_names_refuted",
    "C80_growing_buffer"
   ],
   "note": "proved for names of less than 1024 bytes, an exception is proved for all others (refuted). The loop of Python is proved for all names, if the library returned the documented status"
  },
  {
   "property": "C81",
   "status": "partial",
   "theorems": [
    "C81_careful_programs_are_defined_partial",
    "C81_old_block_refuted",
    "C81_old_keys_refuted",
    "C81_old_properties_refuted",
    "C81_gradient_of_view_refuted",
    "C81_same_blocks_refuted",
    "C81_cleared_list_refuted",
    "C81_moved_values_refuted",
    "C81_shared_values_refuted",
    "C81_as_array_refuted",
    "C81_mixed_arrays_refuted"
   ],
   "note": "proved for programs which follow the rules listed in SpecPyObjects.v (careful); false without each of them (10 refutations)"
  },
  {
   "property": "C82",
   "status": "partial",
   "theorems": [
    "C82_one_owner_partial",
    "C82_everything_is_freed_partial",
    "C82_failure_refuted"
   ],
   "note": "proved when TensorMap() does not raise; false otherwise (refuted), blocks already taken are never freed"
  },
  {
   "property": "C83",
   "status": "proved",
   "theorems": [
    "C83_collection_is_unobservable"
   ],
   "note": ""
  },
  {
   "property": "C84",
   "status": "proved",
   "theorems": [
    "C84_blocks_can_be_read"
   ],
   "note": ""
  },
  {
   "property": "C85",
   "status": "partial",
   "theorems": [
    "C85_same_as_numpy_partial",
    "C85_types_refuted",
    "C85_axes_refuted",
    "C85_shared_refuted"
   ],
   "note": "proved for arrays of the same type and moves as made by keys_to_samples and keys_to_properties; false for other types, other components, or outputs given by the user (refuted)"
  },
  {
   "property": "C86",
   "status": "proved",
   "theorems": [
    "C86_memory_is_not_changed",
    "C86_created_arrays_are_apart",
    "C86_outputs_refuted"
   ],
   "note": "the exception of the statement is needed (refuted without it)"
  },
  {
   "property": "C87",
   "status": "partial",
   "theorems": [
    "C87_readable_arrays",
    "C87_created_arrays_are_readable_partial",
    "C87_components_refuted"
   ],
   "note": "which arrays can be read is proved; arrays created by the library are proved readable if only moved; false after components_to_properties (refuted)"
  },
  {
   "property": "C88",
   "status": "partial",
   "theorems": [
    "C88_keys_to_samples_numpy_partial",
    "C88_keys_to_properties_numpy_partial",
    "C88_components_refuted"
   ],
   "note": "proved for arrays of the same type, and gradients with the same components (checked by the library in debug builds only); refuted for other components in release builds (F64)"
  },
  {
   "property": "C89",
   "status": "proved",
   "theorems": [
    "C89_generated_declarations",
    "C89_header_names",
    "C89_current_file",
    "C89_other_headers_refuted"
   ],
   "note": "the conditions of the statement are needed (refuted without the ones on typedefs)"
  },
  {
   "property": "C90",
   "status": "proved",
   "theorems": [
    "C90_same_declarations"
   ],
   "note": "by computation, for all sizes of pointers and of long"
  },
  {
   "property": "C91",
   "status": "proved",
   "theorems": [
    "C91_keys_to_samples",
    "C91_keys_to_properties",
    "C91_components_to_properties",
    "C91_block_new",
    "C91_add_gradient",
    "C91_block_clone",
    "C91_tensor_new"
   ],
   "note": "for arrays with different pointers; drop order and unwinding of Rust are part of the trusted base"
  },
  {
   "property": "C92",
   "status": "proved",
   "theorems": [
    "C92_keys_to_samples",
    "C92_keys_to_properties",
    "C92_components_to_properties_refuted"
   ],
   "note": "proved for keys_to_samples and keys_to_properties; false for components_to_properties, which is not in the statement (refuted)"
  },
  {
   "property": "C93",
   "status": "proved",
   "theorems": [
    "C93_keys_to_samples",
    "C93_keys_to_properties",
    "C93_components_to_properties",
    "C93_block_new",
    "C93_add_gradient",
    "C93_block_clone",
    "C93_status_refuted"
   ],
   "note": "the exceptions of the statement are needed: the status is lost in a panic (refuted)"
  },
  {
   "property": "C94",
   "status": "proved",
   "theorems": [
    "C94_keys_to_samples",
    "C94_keys_to_properties",
    "C94_components_to_properties",
    "C94_block_new",
    "C94_add_gradient",
    "C94_save",
    "C94_save_finishes",
    "C94_block_clone"
   ],
   "note": "copies of blocks are compared to clone_arrays of CApi.v, saving to put_tensor of Saving.v"
  },
  {
   "property": "C95",
   "status": "partial",
   "theorems": [
    "C95_cause_partial",
    "C95_panic_refuted",
    "C95_threads_refuted",
    "C95_interrupts_refuted",
    "C95_destroy_refuted"
   ],
   "note": "proved for programs with one thread which only raise subclasses of Exception, not when arrays are destroyed, and not for the shape or origin of arrays made by functions which return a status; false otherwise (each condition refuted). Missing: the statement without these conditions, which is false"
  },
  {
   "property": "C96",
   "status": "partial",
   "theorems": [
    "C96_keys_to_samples_partial",
    "C96_keys_to_properties_partial",
    "C96_components_refuted"
   ],
   "note": "proved in debug builds, or when gradients which are merged have the same components; false otherwise (refuted). Missing: release builds with gradients which do not agree, where it is false"
  },
  {
   "property": "C97",
   "status": "partial",
   "theorems": [
    "C97_str",
    "C97_repr",
    "C97_same_text_partial",
    "C97_same_text_refuted"
   ],
   "note": "The lines of the text are given for all tensor maps. The words of a line are the values exactly when every value has less characters than its column; otherwise two tensor maps with different keys can have the same text (refuted, F53)."
  },
  {
   "property": "C98",
   "status": "partial",
   "theorems": [
    "C98_aligned_partial",
    "C98_aligned_refuted"
   ],
   "note": "Aligned exactly when each name is wide enough for the number of names of even length before; false for three names of two characters (F54)."
  },
  {
   "property": "C99",
   "status": "partial",
   "theorems": [
    "C99_block",
    "C99_gradient",
    "C99_same_text_partial",
    "C99_same_gradient_text_partial",
    "C99_same_text_refuted"
   ],
   "note": "The text is given for all blocks and gradients. It determines the names and parameters if no parameter has a quote; refuted otherwise (F55)."
  },
  {
   "property": "C100",
   "status": "proved",
   "theorems": [
    "C100_keys_to_samples",
    "C100_keys_to_properties"
   ],
   "note": "For all answers of the functions of arrays, also wrong shapes; no agreement of gradients is needed."
  },
  {
   "property": "C101",
   "status": "partial",
   "theorems": [
    "C101_named_tuples_partial",
    "C101_labels_of_the_library_partial",
    "C101_single_refuted",
    "C101_as_dict_refuted"
   ],
   "note": "Right whenever it works, but for a variable called as_dict; works exactly for names which do not start with an underscore, are identifiers and not keywords. Labels.single() is refuted (F56, F57)."
  },
  {
   "property": "C102",
   "status": "partial",
   "theorems": [
    "C102_array_of_labels_partial",
    "C102_never_wrong",
    "C102_fields_refuted",
    "C102_steps_refuted",
    "C102_no_entries_refuted"
   ],
   "note": "Labels made without steps or selected variables and with entries; exact description for all labels with all variables; selected variables, steps and empty labels refuted (F58)."
  },
  {
   "property": "C103",
   "status": "partial",
   "theorems": [
    "C103_iteration",
    "C103_block_of_a_key_partial",
    "C103_self_refuted"
   ],
   "note": "Iteration is proved for all tensor maps; block(key) if no variable is called self or __return_selection (refuted otherwise, F59)."
  },
  {
   "property": "C104",
   "status": "proved",
   "theorems": [
    "C104_labels_of_blocks"
   ],
   "note": "For blocks alone or in tensor maps, and all gradients, from any reachable state."
  },
  {
   "property": "C105",
   "status": "partial",
   "theorems": [
    "C105_names_of_all_blocks_partial",
    "C105_no_blocks",
    "C105_no_blocks_refuted"
   ],
   "note": "For all tensor maps with a block; raises without (F60)."
  },
  {
   "property": "C106",
   "status": "partial",
   "theorems": [
    "C106_names_to_samples_partial",
    "C106_names_to_properties_partial",
    "C106_names_of_components_partial",
    "C106_empty_name_refuted",
    "C106_name_with_nul_refuted"
   ],
   "note": "For all names which are not empty and have no NUL; the other ones are refuted (F61)."
  },
  {
   "property": "C107",
   "status": "proved",
   "theorems": [
    "C107_one_library",
    "C107_path_is_used",
    "C107_when_the_path_can_be_set",
    "C107_default_path"
   ],
   "note": "For all sequences of calls, with any files at each call."
  },
  {
   "property": "C108",
   "status": "partial",
   "theorems": [
    "C108_library_is_set_up_partial",
    "C108_second_call_refuted"
   ],
   "note": "False after an exception of setup_functions (F62); proved if no earlier request raised, or all libraries export all functions."
  },
  {
   "property": "C109",
   "status": "partial",
   "theorems": [
    "C109_first_call",
    "C109_library_is_checked_partial",
    "C109_second_call_refuted"
   ],
   "note": "Exact for the first request; later requests after an exception skip the checks (refuted, F63)."
  },
  {
   "property": "C110",
   "status": "proved",
   "theorems": [
    "C110_only_saving_changes_files",
    "C110_saved_file_conforms"
   ],
   "note": "For all programs; saved tensor maps must fit in memory."
  },
  {
   "property": "C111",
   "status": "partial",
   "theorems": [
    "C111_failed_save_keeps_files_partial",
    "C111_failed_save_keeps_files_refuted"
   ],
   "note": "False when an array can not be read: the previous file is lost (refuted, F65). Proved for tensor maps whose data can be read. Errors of the operating system after the file was created are not in this model, see C113."
  },
  {
   "property": "C112",
   "status": "proved",
   "theorems": [
    "C112_unfinished_archive_is_not_loaded",
    "C112_unfinished_file_is_refused"
   ],
   "note": "For the archive which is left by the code, finished by the destructor of the zip crate; errors of the operating system while writing are not in this model, see C113."
  },
  {
   "property": "C113",
   "status": "partial",
   "theorems": [
    "C113_everything_written_partial",
    "C113_all_but_the_end_written_partial",
    "C113_everything_written_refuted"
   ],
   "note": "False when the error is for the bytes which are still in the buffer at the end (refuted, F66). Proved without errors, and with any errors for all the bytes but the last of the buffer. The operations made by the zip crate are any list of writes and seeks."
  },
  {
   "property": "C114",
   "status": "partial",
   "theorems": [
    "C114_library_reads_data_partial",
    "C114_numpy_reads_torch_tensors",
    "C114_library_never_saves_torch_tensors",
    "C114_library_reads_data_refuted"
   ],
   "note": "Proved for numpy arrays and for save(use_numpy=True); false for the library, which never saves a tensor map with a tensor of torch (refuted, F15)."
  },
  {
   "property": "C115",
   "status": "proved",
   "theorems": [
    "C115_tensor_items",
    "C115_labels_items",
    "C115_fixed_size_items",
    "C115_fixed_size_only"
   ],
   "note": ""
  },
  {
   "property": "C116",
   "status": "partial",
   "theorems": [
    "C116_labels_len_partial",
    "C116_fixed_size_len_partial",
    "C116_parallel_len",
    "C116_tensor_len_partial",
    "C116_tensor_len_refuted",
    "C116_no_names_refuted"
   ],
   "note": "Proved for the iterators of labels and for parallel iterators. False for TensorMap::iter and iter_mut, where len() panics unless all the items were given, and for labels without names (refuted, F67)."
  },
  {
   "property": "C117",
   "status": "proved",
   "theorems": [
    "C117_parallel_items",
    "C117_parallel_changes"
   ],
   "note": "The divisions of rayon are any tree of indexes which are not after the end."
  },
  {
   "property": "C118",
   "status": "proved",
   "theorems": [
    "C118_lines",
    "C118_same_text",
    "C118_columns",
    "C118_names",
    "C118_no_names"
   ],
   "note": ""
  },
  {
   "property": "C119",
   "status": "partial",
   "theorems": [
    "C119_load",
    "C119_failed_save_keeps_files_refuted",
    "C119_save_partial",
    "C119_files_partial"
   ],
   "note": "Loading is proved to fail and to change nothing. False for saving, which empties an existing file before it fails (refuted, F68); the exact effect on files is proved."
  },
  {
   "property": "C120",
   "status": "partial",
   "theorems": [
    "C120_arrays_of_rust",
    "C120_after_moving_a_component",
    "C120_without_ndarray",
    "C120_other_arrays_partial",
    "C120_other_arrays_refuted",
    "C120_null_pointers"
   ],
   "note": "Proved for the arrays of Rust, and for other arrays except those which give the identifier of \"rust.ndarray\" as their origin, for which the function is undefined (refuted, F69)."
  },
  {
   "property": "C121",
   "status": "proved",
   "theorems": [
    "C121_identifiers_are_stable",
    "C121_names_are_found"
   ],
   "note": "Extends C32 to the names which the library registers itself."
  },
  {
   "property": "C122",
   "status": "partial",
   "theorems": [
    "C122_collector_restored_partial",
    "C122_collector_restored_without_exceptions",
    "C122_collector_restored_iff",
    "C122_collector_restored_refuted"
   ],
   "note": "Proved except when an exception is raised between gc.disable() and gc.enable() (refuted, F41). For one copy the condition is exact."
  },
  {
   "property": "C123",
   "status": "partial",
   "theorems": [
    "C123_copies_alive_partial",
    "C123_copies_alive_single",
    "C123_copies_alive_disabled",
    "C123_copies_alive_refuted",
    "C123_copy_alive_with_collect_refuted"
   ],
   "note": "Proved when no thread enables the collector, and none calls gc.collect(), while another one copies a block: so for one copy with automatic collections, or for any number when the collector was disabled before. False in general (refuted, F70)."
  },
  {
   "property": "C124",
   "status": "partial",
   "theorems": [
    "C124_python_version_partial",
    "C124_released_version_refuted"
   ],
   "note": "The exact version is proved for all answers of git. False for releases, which get .dev0 (refuted, F71)."
  },
  {
   "property": "C125",
   "status": "partial",
   "theorems": [
    "C125_same_version_partial",
    "C125_same_version_refuted"
   ],
   "note": "Proved when no line before the version contains version = \". False for other keys which end with version (refuted, F72)."
  },
  {
   "property": "C126",
   "status": "proved",
   "theorems": [
    "C126_find_package",
    "C126_find_package_exact",
    "C126_find_package_short",
    "C126_find_package_any"
   ],
   "note": "The variables of find_package are as in the documentation of CMake; ranges of versions are not modelled."
  },
  {
   "property": "C127",
   "status": "partial",
   "theorems": [
    "C127_same_shape_partial",
    "C127_refuted"
   ],
   "note": "Proved for programs which do not set array.shape, nor array.dtype to a type of another size. False after array.shape = ... (refuted, F74)."
  },
  {
   "property": "C128",
   "status": "partial",
   "theorems": [
    "C128_data_of_the_array",
    "C128_reads_the_array_partial",
    "C128_refuted"
   ],
   "note": "What is at the pointer is proved for all programs. Reading as many elements as the known shape is proved when array.dtype keeps the number of bytes; false otherwise (refuted, F75)."
  },
  {
   "property": "C129",
   "status": "partial",
   "theorems": [
    "C129_shape_stays",
    "C129_wrapped",
    "C129_created",
    "C129_copied",
    "C129_reshaped",
    "C129_swapped_partial",
    "C129_swapped_refuted"
   ],
   "note": "Proved for all events and states, except swap_axes after array.shape = ... (refuted, F74)."
  },
  {
   "property": "C130",
   "status": "proved",
   "theorems": [
    "C130_calls_of_save"
   ],
   "note": "ZIP and file errors are not modelled here"
  },
  {
   "property": "C131",
   "status": "proved",
   "theorems": [
    "C131_failures_reported"
   ],
   "note": "errors which are not failures of functions (reading after the end of the memory) are not covered"
  },
  {
   "property": "C132",
   "status": "partial",
   "theorems": [
    "C132_saved_as_answered_partial",
    "C132_saved_as_answered_refuted"
   ],
   "note": "Proved when all the answers of shape are the same for each array. False otherwise (refuted, F76)."
  },
  {
   "property": "C133",
   "status": "partial",
   "theorems": [
    "C133_same_as_arrays_partial",
    "C133_devices_refuted",
    "C133_types_refuted"
   ],
   "note": "Proved for tensors on one device and with one type. False otherwise (refuted, F77)."
  },
  {
   "property": "C134",
   "status": "proved",
   "theorems": [
    "C134_tensors_do_not_change",
    "C134_moves_are_allowed"
   ],
   "note": "torch follows its documentation; recording does not change during the calls"
  },
  {
   "property": "C135",
   "status": "proved",
   "theorems": [
    "C135_gradients_are_recorded",
    "C135_no_other_gradients",
    "C135_recording_is_needed"
   ],
   "note": "when operations are recorded, as in the statement; false under torch.no_grad() as documented by torch (refuted)"
  },
  {
   "property": "C136",
   "status": "proved",
   "theorems": [
    "C136_own_name",
    "C136_always_the_same",
    "C136_other_names",
    "C136_calls_end"
   ],
   "note": "CPython can switch threads between any two uses of global variables or calls of the library"
  },
  {
   "property": "C137",
   "status": "partial",
   "theorems": [
    "C137_objects_partial",
    "C137_wrappers",
    "C137_wrapper_origin",
    "C137_other_arrays",
    "C137_other_arrays_allocated",
    "C137_same_name_refuted",
    "C137_failure_refuted"
   ],
   "note": "Proved for arrays of Python and Rust; for arrays of other programs, exact description. False for those which give the identifier of one of the three names (refuted, F78)."
  },
  {
   "property": "C138",
   "status": "partial",
   "theorems": [
    "C138_two_steps_partial",
    "C138_same_blocks_partial",
    "C138_other_order_refuted"
   ],
   "note": "Proved when the variables are listed in the order of the keys; false otherwise (refuted, the cause is F2). Without sort_samples the order of the samples may differ."
  },
  {
   "property": "C139",
   "status": "partial",
   "theorems": [
    "C139_samples_and_properties_partial",
    "C139_gradients_partial",
    "C139_other_order_refuted"
   ],
   "note": "Proved when both orders are accepted and no rows are given for the properties; one order may be refused when the other is accepted (refuted, F79). In release builds, the values of gradients are covered when the gradients merged together have the same components."
  },
  {
   "property": "C140",
   "status": "partial",
   "theorems": [
    "C140_two_steps_partial",
    "C140_gradients_partial",
    "C140_other_order_refuted"
   ],
   "note": "Proved when the variables are listed in the order of the keys and no rows are given; false in other orders (refuted, the cause is F2). In release builds, the values of gradients are covered when the gradients merged together have the same components."
  },
  {
   "property": "C141",
   "status": "partial",
   "theorems": [
    "C141_samples_and_components_partial",
    "C141_labels_partial",
    "C141_components_first_accepted",
    "C141_other_order_refuted"
   ],
   "note": "Proved when both orders are accepted (values of gradients: in debug builds, or when the gradients merged together have the same components). If the keys can be moved first, the component can; the converse is false for blocks without properties (refuted, F80)."
  },
  {
   "property": "C142",
   "status": "partial",
   "theorems": [
    "C142_properties_and_components_partial",
    "C142_names_partial",
    "C142_components_first_accepted_partial",
    "C142_other_order_refuted"
   ],
   "note": "Proved when both orders are accepted and no rows are given with the variables (values of gradients: in debug builds, or when the gradients merged together have the same components). If the keys can be moved first, the component can, for blocks without empty components or properties; the converse is false (refuted, F81)."
  },
  {
   "property": "C143",
   "status": "partial",
   "theorems": [
    "C143_two_components_partial",
    "C143_names",
    "C143_accepted",
    "C143_order_refuted"
   ],
   "note": "Names and acceptance are proved for any two components. Keys, values and gradients are proved when both components are among the last two of every block; false for other components (refuted, F82)."
  },
  {
   "property": "C144",
   "status": "partial",
   "theorems": [
    "C144_no_panic_partial",
    "C144_panics_exactly",
    "C144_readable",
    "C144_empty_array",
    "C144_null",
    "C144_registry",
    "C144_missing_callback_refuted"
   ],
   "note": "Proved for all arrays, except that it never panics: proved for null pointers and for arrays with callbacks (working or failing) for the origin and the shape, and false for exactly the other ones (C144_panics_exactly; refuted, F83)."
  },
  {
   "property": "C145",
   "status": "proved",
   "theorems": [
    "C145_same_numbers",
    "C145_accepted"
   ],
   "note": "Proved for all well-formed tensor maps; the numbers are compared for arrays which have some (not EmptyArray)."
  },
  {
   "property": "C146",
   "status": "proved",
   "theorems": [
    "C146_part_to_samples",
    "C146_part_to_properties",
    "C146_both_may_be_refused"
   ],
   "note": "Proved for workable tensor maps (the domain of C52 and C53), in debug builds or when the gradients merged together have the same components; for keys_to_properties the blocks have some properties."
  }
 ]
}