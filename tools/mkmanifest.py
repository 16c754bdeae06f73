#!/usr/bin/env python3
# Regenerates MANIFEST.json from the table below.
import json,os
C=[]
def c(p,status,theorems,note=""): C.append({"property":p,"status":status,"theorems":theorems.split(),"note":note})
c("C01","proved","C01_write_stream_is_file C01_any_allocator C01_after_bad_alloc_refuted",
  "All histories. The refuted theorem records that the stream is unusable after a caught bad_alloc.")
c("C02","proved","C02_roundtrip")
c("C03","proved","C03_cross_order C03_cross_streams C03_bigendian_is_reversal C03_bigendian_inverse C03_bigendian_inverse_bytes C03_swap_reverses_words")
c("C04","proved","C04_read_stream_safe C04_unbounded_count_refuted","Needs position+bytes < 2^64; refuted without it.")
c("C05","proved","C05_single_roundtrip","Keys of at most 40 bytes; C13_long_key_refuted shows longer keys break.")
c("C06","proved","C06_array_roundtrip C06_reference_vector_appends_refuted","Destinations whose content is replaced; the refuted theorem records that non-empty reference vectors are appended to.")
c("C07","proved","C07_content_preserved C07_absent_rejected C07_prefix_free")
c("C08","proved","C08_self_delimiting C08_skip_items C08_skip_documents")
c("C09","proved","C09_success_means_same_block C09_key_lengths_refuted C09_value_sizes_refuted","True for strings/arrays and for keys of equal length; refuted for small blocks with keys of different lengths.")
c("C10","proved","C10_items_in_order")
c("C11","proved","C11_documents_roundtrip C11_documents_seen C11_empty_section_refuted","Element counts of arrays are taken from the reading template, which must agree with the stream.")
c("C12","proved","C12_write_section_in_array C12_write_end_array C12_write_other_writer C12_write_end_in_array C12_write_already_open C12_read_section_in_array C12_read_end_array C12_read_other_reader C12_read_end_in_array C12_read_already_open C12_end_null_refuted C12_open_inner_section_refuted C12_end_section_closes_array_refuted C12_missing_end_in_array_refuted C12_end_before_begin_refuted C12_failed_array_refuted C12_refused_element_counted_refuted","All histories of calls. The refuted theorems record protocol violations the code does not detect; the reader theorems need that no BeginReadSectionsArray failed before.")
c("C13","proved","C13_reader_total C13_component_count_refuted C13_huge_allocation_refuted C13_array_allocation_refuted C13_bool_count_refuted C13_string_array_refuted C13_cut_key_refuted C13_empty_key_refuted C13_long_key_refuted","The unprotected corruptions are listed in Damage.v and each is shown to be real by a refuted theorem. Streams below 2^62 bytes, an allocator that grants less than 2^60.")
c("C14","proved","C14_optional_value C14_optional_value_equality C14_optional_vector C14_optional_vector_equality C14_idx_vector C14_idx_vector_equality C14_optional_idx_vector C14_optional_idx_vector_equality","All programs over container variables; std::vector itself is taken as a value.")
c("C15","proved","C15_acyclic_exact C15_acyclic_only","Step budget: the searches end within a bound given by the graph.")
c("C16","proved","C16_validate_exact C16_error_ids C16_isolated_root_refuted")
c("C17","proved","C17_sets C17_equals C17_deep_copy C17_get_successors C17_get_successors_sup_refuted","std::set is a sorted list; an edge to the largest key is missed by GetSuccessors (refuted theorem).")
c("C18","proved","C18_roundtrip")
c("C19","proved","C19_history C19_equals C19_copy C19_index_missing_refuted C19_insert_null_refuted C19_self_assignment_refuted","For every implementation of std::unordered_map (any iteration order). The refuted theorems are findings.")
c("C20","proved","C20_roundtrip C20_zero_bytes_refuted","For every entity class of the generator, graphs, tables, indexed vectors and Varyings.")
c("C21","proved","C21_table C21_table_any C21_zero_key C21_indexed_vector")
c("C22","proved","C22_lookup_exact C22_all_registered C22_unknown_ids C22_null_data C22_known_ids")
c("C23","proved","C23_value_semantics C23_no_leak C23_io_value_semantics C23_io_no_leak C23_move_assignment_leaks_refuted C23_self_assignment_refuted C23_empty_not_equal_refuted","All programs that respect object lifetimes, on a heap, also with Write and Read (from any bytes for which the read is defined); leaks on move assignment, self-assignment and equality of empty objects are refuted.")
c("C24","proved","C24_roundtrip C24_uninitialised C24_io_write C24_io_read")
c("C25","proved","C25_linearizable C25_histories C25_no_race C25_exceptions C25_terminates C25_private_keys","All interleavings of any number of threads; mutex = owner field, library call effects at the end of the call.")
c("C26","proved","C26_hex_text C26_hex_injective C26_text_determines")
c("C27","proved","C27_verdict C27_accepts_only_intact C27_requests_in_bounds C27_open_errors C27_file_name C27_file_name_injective C27_zero_read_refuted C27_handle_exact C27_handle_leak_refuted","For every behaviour of the OS calls; two findings as refuted theorems.")
c("C28","proved","C28_update_feeds C28_digest C28_digest_default C28_library_exists","librock_sha256 is a missing submodule: a parameter assumed to compute FIPS 180-4 SHA-256, which is defined in Sha256Spec.v.")
c("C29","proved","C29_header_checks C29_header_exact C29_total C29_size_wraps_refuted C29_truncated_refuted C29_empty_stream_refuted C29_stays_flipped_refuted C29_no_packet_refuted","For streams holding a whole header in machine order and sizes that do not wrap; the refuted theorems are findings for the rest.")
c("C30","proved","C30_error_count C30_error_ids C30_ids_tell_errors C30_clear_keeps_ids_refuted","Count since the last clear (32 bit); the ids are never cleared: refuted theorem.")
c("C31","proved","C31_equals_exact C31_symmetric C31_transitive C31_reflexive C31_pointers C31_copy C31_clear C31_clear_exact C31_varying_null C31_nan_refuted C31_clear_varying_refuted","Over all entity definitions. Clear: no Varying variables (refuted) and no optional class variables (the generated code does not compile).")
c("C32","proved","C32_roundtrip C32_write_exact C32_fits_iff C32_project_entities C32_empty_entity_refuted C32_references_appended_refuted","Over all entity definitions; the limits are shown by the refuted theorems.")
c("C33","proved","C33_validate_exact","Over all entity definitions whose graph keys have a least and a greatest value.")
c("C34","proved","C34_order C34_equality C34_inequality C34_hash C34_sets C34_limits")
c("C35","proved","C35_ids_unique C35_ids_16_bit C35_all_types")
c("C36","proved","C36_initialize C36_directory_attributes_refuted C36_async_load_refuted")
c("C37","proved","C37_items_cut C37_documents_cut C37_objects_cut C37_project_entities C37_empty_key_refuted","Keys and names of 1 to 40 bytes; streams below 2^62 bytes.")
c("C38","proved","C38_any_bytes C38_rewrite C38_project_entities C38_mesh_refuted C38_section_end_refuted","Names of 1 to 40 bytes; streams below 2^62 bytes, memory limit below 2^60. Exceptions and undefined behaviour are traced to a damaged block that the class asks for (C38_reasons shows one of each). Classes with arrays of vectors or Varyings may have undefined behaviour (C38_mesh_refuted).")
c("C39","proved","C39_store_load C39_digest_identifies C39_byte_order_refuted","Composes C28, C27 and C32. The theorems are about the loader's file procedure (C36: AsyncLoadEntity itself cannot be run without undefined behaviour).")
c("C40","proved","C40_prefix_free C40_canonical C40_same_size C40_copy_refuted C40_equal_refuted","Over all entity definitions. Identical objects with tables: same length, not the same bytes (refuted theorem).")
c("C41","proved","C41_programs C41_programs_from C41_self_assignment C41_project_entities C41_self_assignment_refuted C41_self_assignment_optional_refuted","Over all entity definitions. x = x empties tables, indexed vectors, Varyings and replaces optional objects by default ones (refuted theorems). Valid objects: as in C31/C32 (s_ok).")
c("C42","proved","C42_programs C42_exact C42_no_leak C42_references_stay_valid C42_entities C42_self_assignment_refuted C42_insert_null_refuted","Addresses are never reused in the model; x = std::move( x ) is left unspecified; allocation does not fail; entities are values.")
c("C43","proved","C43_section C43_array C43_element C43_end_before_start_refuted","Any stream below 2^62 bytes and any history of calls; 64-bit positions wrap (refuted theorem).")
c("C44","proved","C44_make C44_handles C44_self_move_refuted C44_sup_overwritten_refuted","The operating system's ::UuidCreate is an arbitrary sequence of replies; that it does not repeat an id is a hypothesis of the comparison part only.")
c("C45","proved","C45_calls C45_end_needs_no_memory C45_section C45_array C45_element C45_section_final C45_array_final C45_end_without_begin_refuted C45_end_before_first_element_refuted C45_position_refuted","Histories in which EndWriteSectionInArray is never given (size_t)-1 as the number of the element; the _refuted theorems show what happens then.")
c("C46","proved","C46_complete C46_shows C46_finishes C46_interrupted C46_again C46_recovers C46_inline C46_inline_again C46_atomic_refuted C46_readonly_refuted C46_posix_stuck_refuted C46_carriage_return_refuted","One character is one byte; recovery is proved for Windows, the platform of the project (on Posix it is refuted for one crash point).")
c("C47","proved","C47_packet_object C47_wrong_flag_refuted","ToMemoryStream is an empty stub in the source, so the packet is put together by the caller (header, ids, written object).")
c("C48","proved","C48_numbers C48_unique_iff C48_stable C48_lookup C48_full_table_refuted C48_too_many_refuted C48_project","for every list of types; findings: no check that the table has a free slot")
c("C49","proved","C49_roundtrip C49_cut C49_any_bytes","Programs with values, objects of all classes, nested sections and arrays of sections; a program expects a certain number of elements of an array (tables, which do not, are in C20 and C38). C49_any_bytes: keys of 1 to 40 bytes, streams below 2^62 bytes, memory limit below 2^60.")
c("C50","proved","C50_write_programs C50_write_long_key C50_read C50_read_programs C50_read_success C50_read_arrays C50_read_safe C50_graph C50_table C50_wrapped_key_refuted C50_empty_key_refuted C50_short_array_refuted","Values, sections, arrays of sections, graph validation; classes and tables consist of these calls and of checks that hold by C50_table or trivially.")
c("C51","proved","C51_changed C51_determined C51_compatible C51_dropped C51_added C51_nested_dropped_refuted C51_nested_position_refuted C51_nested_added_refuted","All changes of a definition that EvolveSpec lists; names not empty. Dropping or adding the last variables of a nested object is not safe: Read ignores the end of its section (refuted theorems).")
c("C52","proved","C52_text_means_class C52_accessors C52_projects C52_key_names C52_optional_class_refuted C52_class_vector_refuted C52_entity_variable_refuted C52_table_flags_refuted","The text is lexed, parsed, checked and executed by CppText/CppSem, a trusted reading of the part of C++ the generator uses; names are C++ identifiers under 256 characters, templates nest at most 4 deep. The refuted theorems are definitions the generator accepts whose files do not compile.")
c("C53","proved","C53_writer_text C53_reader_text C53_project_writes C53_project_reads","The text is parsed and executed by CppFun, a trusted reading of the C++ the functions are written in; everything outside the explicit specialisations is only checked for matching braces. Calls are nested at most two deep, which is what the functions need.")
c("C54","proved","C54_dynamic_types_text C54_project","The text is parsed, checked and executed by CppDyn, a trusted reading of the C++ of these files; log output is skipped, the specialisations of clear_combined_type are linked by name.")
c("C55","proved","C55_information C55_limits C55_value_ptr C55_identifiers C55_model","The text for the list of types of the project is parsed and evaluated by CppData, a trusted reading of the C++ of these files; functions on streams are skipped.")
c("C56","proved","C56_generated C56_finishes C56_recovers C56_again C56_overwrites_refuted C56_taken_name_refuted","Composition of C46 with C52-C55: what is on the disk after a run. The *_refuted theorems are findings: entity names are not checked against existing headers.")
c("C57","proved","C57_write C57_long_name C57_read C57_exchange C57_validate C57_project","C50 lifted from single reader/writer calls to the member functions of all classes. Read can differ only in that the debug build throws on a truncated indexed array where the release build does not succeed either.")
c("C58","proved","C58_thread_test C58_sections_test C58_sections_compare C58_fuzz_test C58_fuzz_exception_refuted C58_graph_tests C58_graph_serialize C58_graph_distinct_refuted C58_value_test C58_value_pass C58_value_coverage C58_stream_test C58_dict_validation C58_dict_copy C58_dict_copy_distinct C58_dict_copy_refuted C58_dict_serialize C58_entity_test C58_entity_ref_test C58_package_ref_test C58_optional_value_test C58_vector_tests C58_functors_test C58_functors_keys C58_dynamic_block C58_dynamic_test C58_dynamic_no_floats C58_dynamic_coverage","Results of rand() are arbitrary; the threads' schedule without allocation failures; Read of section_object with a stack at least as deep as the object. The fuzz test can throw (refuted clause of its name), which the statement says. Graph tests: the drawn nodes are different (the refuted theorem shows that they must be), trees of up to 2^20 nodes. Value test: its index vectors are always empty and quaternion types are not called (C58_value_coverage). EntityTable tests: not for the key types float and double; the copy test can fail if a key is drawn twice (refuted theorem).")
c("C59","proved","C59_any_bytes C59_deep C59_stack_refuted","The stack is counted in calls of Read. C59_stack_refuted is the finding that no fixed stack is enough for all files; C58_sections_test is the other half of C59_deep.")
c("C60","proved","C60_large C60_document C60_class","Streams below 4 GiB. Findings: plain numbers are reversed silently, and a Varying with a float 4x4 matrix is accepted because 0x0101 is the same in both orders.")
c("C61","proved","C61_streams_and_views C61_within_room C61_appending C61_isolated C61_owned C61_nothing_left C61_grown_refuted C61_gone_refuted C61_copy_refuted","Areas of at most 2^62 bytes; released addresses are not used again. Findings: GetData dangles after growth and after destruction, and MemoryWriteStream can be copied although the copy shares the memory and both release it.")
json.dump({"claims":C},open(os.path.join(os.path.dirname(__file__),"..","MANIFEST.json"),"w"),indent=1)
