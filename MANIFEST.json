{
 "claims": [
  {
   "property": "C01",
   "status": "proved",
   "theorems": [
    "C01_sha1_is_fips",
    "C01_null_arguments"
   ],
   "note": "Model keeps unsigned long words of 32 or 64 bits and never masks, as the code does; specification transcribed from FIPS 180-4."
  },
  {
   "property": "C02",
   "status": "proved",
   "theorems": [
    "C02_sha256_is_fips",
    "C02_null_arguments"
   ],
   "note": ""
  },
  {
   "property": "C03",
   "status": "proved",
   "theorems": [
    "C03_range",
    "C03_to_end",
    "C03_whole_file",
    "C03_no_string"
   ],
   "note": "fread may deliver any non-empty part of what is asked; read errors are C44."
  },
  {
   "property": "C04",
   "status": "proved",
   "theorems": [
    "C04_hex_string",
    "C04_injective"
   ],
   "note": ""
  },
  {
   "property": "C05",
   "status": "proved",
   "theorems": [
    "C05_frame_ranges",
    "C05_preview_only_file_refuted"
   ],
   "note": "Proved for every list of files with non-negative non-empty frame intervals; preview-only files (frames -1..-1) yield a phantom range (C05_preview_only_file_refuted)."
  },
  {
   "property": "C06",
   "status": "partial",
   "theorems": [
    "C06_data_frames_partial",
    "C06_zero_capacity",
    "C06_large_files_refuted",
    "C06_exact"
   ],
   "note": "False from 4 GiB on because the size is truncated to unsigned before the division (C06_large_files_refuted, for every such size). The reported number is given for every size by C06_exact."
  },
  {
   "property": "C07",
   "status": "proved",
   "theorems": [
    "C07_colour_depth",
    "C07_no_levels_diverges_refuted"
   ],
   "note": "One level gives 0 symbols per pixel; no levels makes the loop diverge (refuted theorem)."
  },
  {
   "property": "C08",
   "status": "proved",
   "theorems": [
    "C08_sections_over_frames"
   ],
   "note": ""
  },
  {
   "property": "C09",
   "status": "proved",
   "theorems": [
    "C09_overlap_geometric",
    "C09_overlap_symmetric",
    "C09_edge_wrap_refuted"
   ],
   "note": "Right and lower edge must fit in 32 bits; otherwise the edge computation wraps (C09_edge_wrap_refuted)."
  },
  {
   "property": "C10",
   "status": "proved",
   "theorems": [
    "C10_section_list_history",
    "C10_definition_sections_history"
   ],
   "note": ""
  },
  {
   "property": "C11",
   "status": "proved",
   "theorems": [
    "C11_layout_definition_history"
   ],
   "note": ""
  },
  {
   "property": "C12",
   "status": "proved",
   "theorems": [
    "C12_used_layouts"
   ],
   "note": "For tables of contents with at least one reel and one definition (the query returns NULL otherwise)."
  },
  {
   "property": "C13",
   "status": "partial",
   "theorems": [
    "C13_exact",
    "C13_sections_extracted",
    "C13_pixels",
    "C13_missing",
    "C13_edge_wrap_refuted"
   ],
   "note": "The stated claim holds for sections whose right and lower edge fit in 32 bits; otherwise the sum wraps and the crop is asked for columns outside the image (C13_edge_wrap_refuted). C13_exact gives the result for every section. boxing_image8_crop / rotate are external: parameters with contracts, met by a concrete witness."
  },
  {
   "property": "C14",
   "status": "proved",
   "theorems": [
    "C14_compact_round_trip",
    "C14_indented_round_trip",
    "C14_set_then_get",
    "C14_injective"
   ],
   "note": "For the trees the library builds (elements with no content, one text, or only elements; CDATA) whose strings are UTF-8 text."
  },
  {
   "property": "C15",
   "status": "partial",
   "theorems": [
    "C15_cut_exact",
    "C15_injection_refuted",
    "C15_cdata_round_trip",
    "C15_terminator_refuted"
   ],
   "note": "The stated claim holds for payloads without the terminator ]]>. With it the payload is cut at the first one (C15_cut_exact) and markup in the rest is read as elements (C15_injection_refuted)."
  },
  {
   "property": "C16",
   "status": "proved",
   "theorems": [
    "C16_indentation_is_invisible"
   ],
   "note": "Tree level; the object level follows in the round-trip theorems, which hold for every indenting callback."
  },
  {
   "property": "C17",
   "status": "proved",
   "theorems": [
    "C17_file_round_trip",
    "C17_file_normal_form",
    "C17_file_back_valid",
    "C17_outer_blanks_refuted"
   ],
   "note": "Strings must be UTF-8 text, numbers in range of their C types. Entries outside the normal form come back normalised (file_back), shown by C17_outer_blanks_refuted."
  },
  {
   "property": "C18",
   "status": "proved",
   "theorems": [
    "C18_files_round_trip",
    "C18_files_normal_form",
    "C18_blank_name_refuted"
   ],
   "note": "A list with a blank name saves but does not load (C18_blank_name_refuted)."
  },
  {
   "property": "C19",
   "status": "proved",
   "theorems": [
    "C19_page_round_trip",
    "C19_preview_round_trip",
    "C19_preview_normal_form",
    "C19_page_normal_form",
    "C19_half_overlap_refuted"
   ],
   "note": "C19_half_overlap_refuted shows the loss outside the normal form."
  },
  {
   "property": "C20",
   "status": "proved",
   "theorems": [
    "C20_sections_round_trip",
    "C20_definition_round_trip",
    "C20_definition_normal_form",
    "C20_collection_round_trip",
    "C20_collection_normal_form",
    "C20_repeated_section_id_refuted"
   ],
   "note": "Validity does not exclude repeated section ids, loading does (C20_repeated_section_id_refuted)."
  },
  {
   "property": "C21",
   "status": "proved",
   "theorems": [
    "C21_file_metadata_round_trip",
    "C21_file_metadata_normal_form",
    "C21_toc_metadata_round_trip",
    "C21_toc_metadata_normal_form",
    "C21_format_without_data_refuted"
   ],
   "note": "boxing_string_split is a parameter with the contract `splits`; split_parts is shown to meet it. C21_format_without_data_refuted."
  },
  {
   "property": "C22",
   "status": "proved",
   "theorems": [
    "C22_reel_round_trip",
    "C22_reels_round_trip",
    "C22_toc_round_trip",
    "C22_toc_normal_form",
    "C22_reels_normal_form"
   ],
   "note": "boxing_string_split as in C21."
  },
  {
   "property": "C23",
   "status": "partial",
   "theorems": [
    "C23_control_round_trip",
    "C23_admin_round_trip",
    "C23_technical_round_trip",
    "C23_format_round_trip",
    "C23_normal_form",
    "C23_config_same",
    "C23_missing_part",
    "C23_missing_part_xml",
    "C23_invalid_files",
    "C23_outer_blanks_refuted",
    "C23_alias_refuted",
    "C23_bad_technical_accepted_refuted"
   ],
   "note": "Every control data object comes back in a normal form (C23_control_round_trip), equal when it is in that normal form (C23_normal_form). Refuted outside it: strings with outer blanks, classes with an alias (properties not saved). Bad technical parts are accepted by load (C23_bad_technical_accepted_refuted). boxing_config is external: modelled by contract."
  },
  {
   "property": "C24",
   "status": "proved",
   "theorems": [
    "C24_ranges",
    "C24_not_equal",
    "C24_clone_equal",
    "C24_equality_equivalence",
    "C24_equality_compares_every_field"
   ],
   "note": "TOC objects; control data parts are separate theorems. Independence of the copy's memory is not expressible with objects as values."
  },
  {
   "property": "C25",
   "status": "partial",
   "theorems": [
    "C25_validity_decided",
    "C25_files_history",
    "C25_reel_files_history",
    "C25_reels_history",
    "C25_metadata_history",
    "C25_file_metadata_history",
    "C25_pages_history",
    "C25_invalid_not_saved",
    "C25_invalid_page_saved_refuted"
   ],
   "note": "Pages are the exception: an invalid page is written (C25_invalid_page_saved_refuted)."
  },
  {
   "property": "C26",
   "status": "proved",
   "theorems": [
    "C26_toc_offset",
    "C26_reel_offset",
    "C26_files_offset",
    "C26_shift_keeps_validity",
    "C26_shift_keeps_duration",
    "C26_offsets_add_up",
    "C26_single_file_offset"
   ],
   "note": ""
  },
  {
   "property": "C27",
   "status": "partial",
   "theorems": [
    "C27_first_last_partial",
    "C27_preview_first_partial",
    "C27_unordered_refuted",
    "C27_reel_preview_refuted",
    "C27_reel_frames_partial",
    "C27_reel_without_digital_files",
    "C27_digital_exact",
    "C27_preview_last_partial",
    "C27_both_kinds",
    "C27_preview_last_exact"
   ],
   "note": "Holds for lists in frame order; for every other order C27_digital_exact says what is reported (start of the first, end of the last file of the list). Refuted as a bound for unordered lists and for the preview section of a reel. Last preview frame: C27_preview_last_partial, for pages in known layouts whose first page starts lowest. C27_preview_last_exact gives the last preview frame for pages in any order and any start sections."
  },
  {
   "property": "C28",
   "status": "proved",
   "theorems": [
    "C28_add_type",
    "C28_classification",
    "C28_reel_queries"
   ],
   "note": ""
  },
  {
   "property": "C29",
   "status": "partial",
   "theorems": [
    "C29_file_by_id",
    "C29_file_by_unique_id_partial",
    "C29_null_unique_id_refuted",
    "C29_reel_by_id",
    "C29_file_by_unique_id_exact",
    "C29_no_unique_id"
   ],
   "note": "C29_file_by_unique_id_exact decides every case: the call crashes exactly when a file without unique id precedes the match (C29_null_unique_id_refuted)."
  },
  {
   "property": "C30",
   "status": "partial",
   "theorems": [
    "C30_reel_size_partial",
    "C30_spanning_files_refuted",
    "C30_reel_size_exact"
   ],
   "note": "Only for files on one frame; what is reported in every other case is C30_reel_size_exact (sum of end byte - start byte + 1, or 0), so a file spanning frames is counted wrongly (C30_spanning_files_refuted)."
  },
  {
   "property": "C31",
   "status": "proved",
   "theorems": [
    "C31_trim",
    "C31_trim_unique"
   ],
   "note": ""
  },
  {
   "property": "C32",
   "status": "proved",
   "theorems": [
    "C32_int_element_round_trip",
    "C32_int64_element_round_trip",
    "C32_attribute_round_trip"
   ],
   "note": ""
  },
  {
   "property": "C33",
   "status": "proved",
   "theorems": [
    "C33_linked_search",
    "C33_linked_children",
    "C33_search_enumerates",
    "C33_search_first",
    "C33_children"
   ],
   "note": ""
  },
  {
   "property": "C34",
   "status": "partial",
   "theorems": [
    "C34_file_reader",
    "C34_load_file",
    "C34_terminates",
    "C34_stays_inside_partial",
    "C34_text_inside",
    "C34_utf16_refuted",
    "C34_buffers",
    "C34_entity_buffer"
   ],
   "note": "Termination for every string and file; files of any bytes are read inside bounds (C34_file_reader). Strings: reads stay inside for every string without a byte pair FE FF / FF FE; a UTF-16LE byte order mark makes the string reader run past the terminator (C34_utf16_refuted)."
  },
  {
   "property": "C35",
   "status": "proved",
   "theorems": [
    "C35_saved_text_complete",
    "C35_saved_tree_complete",
    "C35_any_buffer"
   ],
   "note": ""
  },
  {
   "property": "C36",
   "status": "partial",
   "theorems": [
    "C36_files_table",
    "C36_location_table_partial",
    "C36_location_unwritten_refuted",
    "C36_location_overflow_refuted",
    "C36_files_format_refuted",
    "C36_location_exact",
    "C36_metadata_table",
    "C36_file_metadata_table",
    "C36_file_metadata_empty",
    "C36_layouts_table",
    "C36_layouts_empty",
    "C36_metadata_linked_refuted"
   ],
   "note": "Each renderer, on objects whose strings exist and with tables below 1 GiB, stays inside its blocks and local arrays and returns exactly the table of SpecTable.v. Partial because the English claim is false: the location table sets aside location_room bytes; C36_location_exact decides for every list of files and pages whether the table fits (returned) or a byte is written behind the block, C36_location_table_partial shows it fits when width and height of a page are padded alike, C36_location_overflow_refuted is one overlap of 100x0. With no rows it returns a block never written (C36_location_unwritten_refuted). Valid objects with NULL strings or a 255-byte format crash (C36_files_format_refuted, C36_metadata_linked_refuted)."
  },
  {
   "property": "C37",
   "status": "proved",
   "theorems": [
    "C37_alive_while_referenced",
    "C37_count",
    "C37_no_leak",
    "C37_released_when_equal",
    "C37_clone",
    "C37_clone_then_free"
   ],
   "note": "Every history of creations, appends, new references and frees of all 23 block types in which the client only frees or gives away references it holds: no call touches released memory; an object is allocated exactly while the client holds a reference or it is stored in a living object; the count is the number of both; nothing leaks; a clone owns fresh copies of everything and freeing it restores the heap. Fewer than 2^31-1 calls (the count is an int); malloc succeeds."
  },
  {
   "property": "C38",
   "status": "partial",
   "theorems": [
    "C38_created_iff",
    "C38_inside",
    "C38_size",
    "C38_exact_size_refuted",
    "C38_image",
    "C38_black_on_bar_partial",
    "C38_odd_width_refuted"
   ],
   "note": "The bar is inside the frame, starts at the centre column, is 1.98/13.87 of the height up to one pixel and 2^-21; the picture is black exactly on the bar for even widths only: for odd widths the last column is painted although the recorded bar ends before it (C38_odd_width_refuted). Float arithmetic is Flocq's binary32 rounded after each operation. Frames below 2x12 are refused. Rests on the axioms of Coq's standard real numbers (listed in DESIGN.md)."
  },
  {
   "property": "C39",
   "status": "proved",
   "theorems": [
    "C39_entities",
    "C39_standard_entities",
    "C39_written_entities_decode",
    "C39_unknown_rejected"
   ],
   "note": ""
  },
  {
   "property": "C40",
   "status": "partial",
   "theorems": [
    "C40_v1_round_trip",
    "C40_v1_normal_form_partial",
    "C40_checksum_lost_refuted"
   ],
   "note": "The older form has no checksum: C40_checksum_lost_refuted holds for every digital entry with a checksum; with an empty checksum the round trip is proved."
  },
  {
   "property": "C41",
   "status": "proved",
   "theorems": [
    "C41_tags_buffer",
    "C41_tags_survive"
   ],
   "note": "boxing_string_split is a parameter with the contract `splits`."
  },
  {
   "property": "C42",
   "status": "proved",
   "theorems": [
    "C42_file_count",
    "C42_frame_count",
    "C42_first_and_last_frame"
   ],
   "note": ""
  },
  {
   "property": "C43",
   "status": "proved",
   "theorems": [
    "C43_every_list",
    "C43_counts",
    "C43_ranges_history",
    "C43_section_by_index",
    "C43_file_by_index"
   ],
   "note": ""
  },
  {
   "property": "C44",
   "status": "partial",
   "theorems": [
    "C44_outside_partial",
    "C44_start_after_end_refuted",
    "C44_negative_size_refuted",
    "C44_read_error_refuted",
    "C44_exact"
   ],
   "note": "Ranges past the end and negative starts are refused; the statement as such is false of the code: start one past the end with size -1 yields the digest of nothing, sizes below -1 overrun the 512-byte read buffer, and a read error prints uninitialised memory (refuted theorems). C44_exact gives the answer of every request with plain reads, for every start and size."
  },
  {
   "property": "C45",
   "status": "proved",
   "theorems": [
    "C45_equal_equivalence",
    "C45_clone_equal",
    "C45_equal_content"
   ],
   "note": "boxing_config_is_equal (external library) enters as a parameter with the contract `compares`; the witness shows the contract is met by a concrete comparison."
  },
  {
   "property": "C46",
   "status": "partial",
   "theorems": [
    "C46_clone_exact",
    "C46_sizes_exact",
    "C46_equal_iff",
    "C46_equivalence",
    "C46_clone_partial",
    "C46_clone_refuted",
    "C46_init_refuted",
    "C46_created",
    "C46_sizes_partial",
    "C46_sizes_refuted"
   ],
   "note": "The boxing library (frame factory, codecs, configuration) is external: a record of functions with a stated contract, met by a concrete library. Clones: proved when a frame can be built or no name is set, refuted otherwise (C46_clone_refuted). Bytes per frame: while capacity * bits < 2^32, wraps beyond (C46_sizes_refuted). C46_clone_exact and C46_sizes_exact decide every case. afs_boxing_format_init leaves fields unwritten (C46_init_refuted). Earlier rounds of seeded/LOG.jsonl that mention C46 with get_ceil refer to what is now C06."
  },
  {
   "property": "C47",
   "status": "partial",
   "theorems": [
    "C47_set",
    "C47_set_own_value_refuted",
    "C47_set_tags",
    "C47_set_no_tags",
    "C47_set_own_tag",
    "C47_set_own_tag_refuted"
   ],
   "note": "Proved for every object and value of any type when the value is still alive without the old contents of the field. Otherwise, e.g. a string given back to its own setter, the setter copies released memory (C47_set_own_value_refuted). set_tags, which splits its argument, is covered by C47_set_tags (a list from elsewhere) and C47_set_no_tags; a tag of the source itself is read after release (C47_set_own_tag, C47_set_own_tag_refuted)."
  },
  {
   "property": "C48",
   "status": "proved",
   "theorems": [
    "C48_indented_toc",
    "C48_indented_control",
    "C48_indented_file_string",
    "C48_file_to_disk_refuted",
    "C48_files_refuted"
   ],
   "note": "The statement names the saves that crash. All 19 callbacks are transcribed from the C sources. Proved for 17 of the callers; refuted (crash for every object) for afs_toc_file_save_file and afs_toc_files_save_string/_save_file in non-compact mode."
  },
  {
   "property": "C49",
   "status": "partial",
   "theorems": [
    "C49_preview_frames",
    "C49_unknown_layout",
    "C49_no_pages",
    "C49_late_start_refuted",
    "C49_exact",
    "C49_counted",
    "C49_counted_placed"
   ],
   "note": "Pages must begin on their start frame (start section below the number of sections of the layout); otherwise frames without content are counted (C49_late_start_refuted). C49_exact gives the count for every start section: the least interval of the counted frames, which runs from the start frame of each page."
  },
  {
   "property": "C50",
   "status": "proved",
   "theorems": [
    "C50_new_child",
    "C50_new_root",
    "C50_add_ends",
    "C50_add_beside",
    "C50_remove",
    "C50_move",
    "C50_build",
    "C50_behind_itself_refuted"
   ],
   "note": "Attribute setting is one step with the final attributes; calloc never fails; reference counts of nodes are not modelled (the library never retains or releases nodes). C50_behind_itself_refuted shows the one misuse found: mxmlAdd of a child beside itself."
  },
  {
   "property": "C51",
   "status": "proved",
   "theorems": [
    "C51_delete_document",
    "C51_delete_subtree",
    "C51_build_delete"
   ],
   "note": "Names, attributes and texts are values owned by their node, released with it."
  },
  {
   "property": "C52",
   "status": "proved",
   "theorems": [
    "C52_readers_agree",
    "C52_file_as_string",
    "C52_malformed_refuted",
    "C52_toc_files",
    "C52_control_files",
    "C52_file_entries",
    "C52_indented_file_entries_refuted",
    "C52_touches_only",
    "C52_failure_harmless",
    "C52_emptied_refuted",
    "C52_missing_file",
    "C52_config_file"
   ],
   "note": "The statement names its exceptions. Proved for all kinds whose save works; refuted: C52_emptied_refuted (an invalid file entry, or technical metadata holding one, truncates the file and then fails), C52_indented_file_entries_refuted (crash), C52_malformed_refuted (malformed UTF-8 is accepted by the file reader and rejected by the string reader). stdio is assumed to write everything: a full disk is not modelled (mxmlSaveFile's result is ignored by every caller)."
  },
  {
   "property": "C53",
   "status": "proved",
   "theorems": [
    "C53_utf16",
    "C53_converted_file",
    "C53_low_surrogate_refuted",
    "C53_every_low_surrogate_refuted"
   ],
   "note": "The statement names its exception: C53_every_low_surrogate_refuted, for every such character."
  },
  {
   "property": "C54",
   "status": "proved",
   "theorems": [
    "C54_cut_document",
    "C54_whole_or_refused",
    "C54_whole_refused_or_empty",
    "C54_control",
    "C54_silently_empty_refuted",
    "C54_control_loses_technical_refuted",
    "C54_old_content_lost_refuted",
    "C54_config_file",
    "C54_config_silently_empty_refuted"
   ],
   "note": "The no-partial-objects claim is proved for all 19 kinds and every cut point (C54_cut_document for the reader, C54_whole_or_refused, C54_whole_refused_or_empty, C54_control, C54_config_file). Atomicity is false: C54_silently_empty_refuted, C54_config_silently_empty_refuted, C54_control_loses_technical_refuted, C54_old_content_lost_refuted give the crash points."
  },
  {
   "property": "C55",
   "status": "proved",
   "theorems": [
    "C55_new_object",
    "C55_required",
    "C55_replaces",
    "C55_toc_replaces",
    "C55_failure_unchanged",
    "C55_unreadable",
    "C55_sections_append",
    "C55_definitions_append",
    "C55_lists_append",
    "C55_list_load",
    "C55_sections_history",
    "C55_definitions_history",
    "C55_lists_history",
    "C55_saved_replaces",
    "C55_saved_keeps",
    "C55_saved_lists",
    "C55_failure_changes_refuted",
    "C55_keeps_refuted",
    "C55_stale_data_refuted",
    "C55_constructors_ignore_failure_refuted",
    "C55_page_fields",
    "C55_preview_resolution",
    "C55_file_source_fields",
    "C55_toc_source_fields",
    "C55_file_fields",
    "C55_file_types",
    "C55_reel_fields",
    "C55_toc_fields",
    "C55_technical_fields"
   ],
   "note": "Proved: loads into new objects and what a document must contain (C55_new_object, C55_required), replacement for five kinds and conditionally for the table of contents, append semantics and history invariants of all lists, exact results for saved documents loaded over any old object (C55_saved_*), unreadable texts. The remaining English wish is false of the code: C55_failure_changes_refuted (17 kinds), C55_keeps_refuted (14 kinds), C55_stale_data_refuted, C55_constructors_ignore_failure_refuted. Field by field for every document: C55_page_fields, C55_preview_resolution, C55_file_source_fields, C55_toc_source_fields, C55_file_fields, C55_file_types, C55_reel_fields, C55_toc_fields, C55_technical_fields."
  },
  {
   "property": "C56",
   "status": "proved",
   "theorems": [
    "C56_one_at_a_time",
    "C56_locked",
    "C56_private",
    "C56_bookkeeping",
    "C56_leak_refuted",
    "C56_use_after_release_refuted",
    "C56_early_release_refuted"
   ],
   "note": "Each get is a read and a write of the count, each free a read, a write, a test read and the release; threads are interleaved access by access. Proved: C56_one_at_a_time, C56_locked, C56_private, C56_bookkeeping. The statement without a lock is refuted for both release tests in the code (<= 0 and == 0). Data races are modelled as interleavings (sequential consistency), which is weaker than the C standard: there a race is undefined."
  },
  {
   "property": "C57",
   "status": "proved",
   "theorems": [
    "C57_new",
    "C57_values",
    "C57_metadata_sources",
    "C57_layout_init_refuted"
   ],
   "note": "Blocks of memory hold arbitrary contents; an object is read from a block by a separate reader written from the struct declarations. C57_new, C57_values, C57_metadata_sources; the exception is C57_layout_init_refuted."
  },
  {
   "property": "C58",
   "status": "proved",
   "theorems": [
    "C58_history",
    "C58_answers_determined"
   ],
   "note": "C58_history: for every list of calls the model run never fails, answers as the rules in SpecBuild.v, shows exactly the book of these rules, and is valid iff named. Limits: fewer than 2^32 elements offered, rectangles in 32 bits, frame numbers moved by all offsets together stay ints. C58_answers_determined: the rules leave no choice."
  },
  {
   "property": "C59",
   "status": "proved",
   "theorems": [
    "C59_same_sizes"
   ],
   "note": ""
  },
  {
   "property": "C60",
   "status": "proved",
   "theorems": [
    "C60_extract",
    "C60_exact",
    "C60_one_byte_refuted"
   ],
   "note": "C60_extract, C60_exact (written = placed iff never_one_byte), C60_one_byte_refuted. Frames below 2^32 bytes, files below 2^61; frames are read from files other than the output."
  },
  {
   "property": "C61",
   "status": "proved",
   "theorems": [
    "C61_checked",
    "C61_present"
   ],
   "note": "For contents of bytes below 2^61 (C03)."
  },
  {
   "property": "C62",
   "status": "proved",
   "theorems": [
    "C62_name",
    "C62_one_file",
    "C62_collision_refuted",
    "C62_no_name_refuted"
   ],
   "note": "C62_one_file holds for every outcome. Refuted parts: collisions, missing names."
  },
  {
   "property": "C63",
   "status": "proved",
   "theorems": [
    "C63_depth",
    "C63_ambiguous_refuted",
    "C63_pixels",
    "C63_scale",
    "C63_no_image",
    "C63_empty_file"
   ],
   "note": "C63_ambiguous_refuted shows that the three excluded sizes are really ambiguous. With 64 extra bytes the pixels are read from byte 32 on."
  },
  {
   "property": "C64",
   "status": "proved",
   "theorems": [
    "C64_options",
    "C64_incomplete",
    "C64_chosen",
    "C64_asked",
    "C64_range_refuted"
   ],
   "note": "C64_options: says is an inductive description of argument lists; arguments shorter than 2^64."
  },
  {
   "property": "C65",
   "status": "proved",
   "theorems": [
    "C65_recover",
    "C65_no_control",
    "C65_first_run_refuted",
    "C65_no_toc_refuted",
    "C65_second_toc_refuted",
    "C65_damaged_file",
    "C65_each_file",
    "C65_toc_files",
    "C65_saved_and_recovered"
   ],
   "note": "C65_recover assumes what recoverable/toc_available/control_frame (SpecTool2.v) say; witness built from saved documents."
  },
  {
   "property": "C66",
   "status": "proved",
   "theorems": [
    "C66_number",
    "C66_padded",
    "C66_wide_refuted",
    "C66_distinct"
   ],
   "note": "sprintf with the conversions %d, %<w>d, %0<w>d, %% is modelled from its specification."
  },
  {
   "property": "C67",
   "status": "proved",
   "theorems": [
    "C67_toc_strings",
    "C67_control_strings",
    "C67_file_strings",
    "C67_refused"
   ],
   "note": "A text of 2^31 bytes or more (the column and the size are ints) is outside the model. mxmlSaveAllocString's two buffers: C34_buffers."
  },
  {
   "property": "C68",
   "status": "proved",
   "theorems": [
    "C68_same_document",
    "C68_same_control_document",
    "C68_file_entry",
    "C68_indented_entry_refuted"
   ],
   "note": "The statement names its exception: C68_indented_entry_refuted (indented save of a file entry crashes to disk only)."
  },
  {
   "property": "C69",
   "status": "proved",
   "theorems": [
    "C69_linked",
    "C69_built"
   ],
   "note": "The callback's answers are related to the tree by the predicate answers (SpecWriter.v), met by every callback that looks at names and text only; a node with a next sibling is written together with what follows it (Example C69_sibling; no caller does that)."
  },
  {
   "property": "C70",
   "status": "proved",
   "theorems": [
    "C70_string",
    "C70_file",
    "C70_rejected_string",
    "C70_rejected_file",
    "C70_leak_refuted",
    "C70_load_delete",
    "C70_elements",
    "C70_from_any_node",
    "C70_fields"
   ],
   "note": "calloc never fails. The leak of one node at two kinds of malformed text is proved (C70_leak_refuted) and at most one is proved in general; the statement includes it."
  },
  {
   "property": "C71",
   "status": "proved",
   "theorems": [
    "C71_reads",
    "C71_spelling_does_not_matter",
    "C71_understood",
    "C71_control_understood",
    "C71_comment_beside_root_refuted",
    "C71_empty_comment_refuted",
    "C71_attribute_name_refuted",
    "C71_long_reference_refuted",
    "C71_line_ends_refuted",
    "C71_text_after_comment_refuted",
    "C71_text_in_cdata_refuted"
   ],
   "note": "The grammar leaves out internal subsets of document types, entities beyond the predefined five and the normalisation of line ends and attribute values; the deviations from XML are the C71_*_refuted theorems."
  },
  {
   "property": "C72",
   "status": "proved",
   "theorems": [
    "C72_writes",
    "C72_writes_bare",
    "C72_writes_exactly",
    "C72_toc_documents",
    "C72_file_documents",
    "C72_control_documents",
    "C72_two_roots_refuted",
    "C72_control_character_refuted"
   ],
   "note": "The grammar is SpecGrammar.v, as for C71. Control data as a whole (two document elements, C72_two_roots_refuted) and texts with control characters (C72_control_character_refuted) are part of the statement. The indented save of a file list crashes (C48) and is excepted in C72_file_documents."
  },
  {
   "property": "C73",
   "status": "proved",
   "theorems": [
    "C73_toc_exact",
    "C73_file_exact",
    "C73_old_form_refuted",
    "C73_files_refuted",
    "C73_tocs_refuted",
    "C73_control_refuted",
    "C73_published_example_refuted"
   ],
   "note": "C73_toc_exact and C73_file_exact decide acceptance for every valid object; the cases where the schema is not met are C73_files_refuted, C73_tocs_refuted, C73_old_form_refuted, C73_control_refuted and C73_published_example_refuted. [\\d] and [\\s] of the patterns are ASCII digits and XML blanks."
  },
  {
   "property": "C74",
   "status": "proved",
   "theorems": [
    "C74_house",
    "C74_toc_exact",
    "C74_file_exact",
    "C74_refuted"
   ],
   "note": "C74_house for 13 kinds of objects; C74_toc_exact and C74_file_exact give the exact (irregular) layout of tables of contents and file entries; C74_refuted lists the kinds that leave the house style. File entries whose checksum is only blanks are excluded."
  },
  {
   "property": "C75",
   "status": "proved",
   "theorems": [
    "C75_same_files",
    "C75_same_strings",
    "C75_same_objects",
    "C75_save_file",
    "C75_save_string",
    "C75_save_string_leaves_nothing",
    "C75_load_file",
    "C75_load_string",
    "C75_loads_end",
    "C75_deleted_refuted"
   ],
   "note": "Orderly use of files and documents for all 76 functions; the leaks are decided exactly (iff) and exhibited in C75_deleted_refuted. C75_same_* tie the statement lists to the functional models. The events of mxmlDelete and fclose themselves are taken from their contracts (C69 models mxmlDelete)."
  },
  {
   "property": "C76",
   "status": "proved",
   "theorems": [
    "C76_sessions",
    "C76_files",
    "C76_crash"
   ],
   "note": "All sessions; the object is loaded into itself. Loads of files that the session did not save and that exist are outside the statement (C34, C55 cover loading arbitrary files). C76_crash: an interrupted last save leaves the other files as they were, and its own file refused, whole, or loading as an empty invalid object."
  },
  {
   "property": "C77",
   "status": "proved",
   "theorems": [
    "C77_toc",
    "C77_parts",
    "C77_tags_refuted"
   ],
   "note": "C77_toc needs tags in normal form; C77_tags_refuted shows why."
  }
 ]
}