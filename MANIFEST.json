{
 "claims": [
  {
   "property": "C01",
   "status": "proved",
   "theorems": [
    "c01_index_is_balanced_search_tree"
   ],
   "note": ""
  },
  {
   "property": "C02",
   "status": "proved",
   "theorems": [
    "c02_insert_is_set_insertion"
   ],
   "note": ""
  },
  {
   "property": "C03",
   "status": "proved",
   "theorems": [
    "c03_depth_is_logarithmic"
   ],
   "note": ""
  },
  {
   "property": "C04",
   "status": "proved",
   "theorems": [
    "c04_reorder_is_exact"
   ],
   "note": ""
  },
  {
   "property": "C05",
   "status": "proved",
   "theorems": [
    "c05_name_comparison",
    "c05_name_comparison_total_order"
   ],
   "note": ""
  },
  {
   "property": "C06",
   "status": "proved",
   "theorems": [
    "c06_volume_fields",
    "c06_volume_round_trip",
    "c06_volume_round_trip_bytes"
   ],
   "note": ""
  },
  {
   "property": "C07",
   "status": "proved",
   "theorems": [
    "c07_dirent_fields",
    "c07_dirent_round_trip",
    "c07_dirent_round_trip_bytes"
   ],
   "note": ""
  },
  {
   "property": "C08",
   "status": "proved",
   "theorems": [
    "c08_accepted_names_round_trip",
    "c08_too_long_iff"
   ],
   "note": ""
  },
  {
   "property": "C09",
   "status": "proved",
   "theorems": [
    "c09_table_layout_is_legal",
    "c09_empty_table"
   ],
   "note": ""
  },
  {
   "property": "C10",
   "status": "proved",
   "theorems": [
    "c10_child_pointers_are_exact"
   ],
   "note": ""
  },
  {
   "property": "C11",
   "status": "proved",
   "theorems": [
    "c11_disk_repr_total",
    "c11_adding_entries_total",
    "c11_compute_size_total"
   ],
   "note": ""
  },
  {
   "property": "C12",
   "status": "proved",
   "theorems": [
    "c12_regions_are_disjoint"
   ],
   "note": "For allocators whose total stays below 2^32 sectors; beyond that see C13."
  },
  {
   "property": "C13",
   "status": "partial",
   "theorems": [
    "c13_overflow_detected_debug_partial",
    "c13_overflow_detected_refuted"
   ],
   "note": "Proved for debug builds. Refuted for release builds: the u32 addition wraps and regions overlap (witness)."
  },
  {
   "property": "C14",
   "status": "proved",
   "theorems": [
    "c14_packed_files_read_back",
    "c14_host_source"
   ],
   "note": "For every source tree whose sizes fit the 32-bit counters (spec: source, small) and every host file system that presents it."
  },
  {
   "property": "C15",
   "status": "proved",
   "theorems": [
    "c15_lookup_ignores_case"
   ],
   "note": ""
  },
  {
   "property": "C16",
   "status": "proved",
   "theorems": [
    "c16_absent_paths_are_reported",
    "c16_present_or_missing"
   ],
   "note": ""
  },
  {
   "property": "C17",
   "status": "proved",
   "theorems": [
    "c17_listing_is_exact"
   ],
   "note": ""
  },
  {
   "property": "C18",
   "status": "proved",
   "theorems": [
    "c18_scan_agrees_with_walk",
    "c18_region_is_unique"
   ],
   "note": ""
  },
  {
   "property": "C19",
   "status": "proved",
   "theorems": [
    "c19_packing_succeeds_exactly_on_representable_trees"
   ],
   "note": ""
  },
  {
   "property": "C20",
   "status": "proved",
   "theorems": [
    "c20_packing_never_panics"
   ],
   "note": ""
  },
  {
   "property": "C21",
   "status": "proved",
   "theorems": [
    "c21_image_geometry"
   ],
   "note": ""
  },
  {
   "property": "C22",
   "status": "proved",
   "theorems": [
    "c22_interrupted_packing_is_rejected_or_complete",
    "c22_crashing_host"
   ],
   "note": "Ordered-write crash model: a prefix of the write sequence with a torn last write."
  },
  {
   "property": "C23",
   "status": "proved",
   "theorems": [
    "c23_progress_adds_up",
    "c23_finished_only_on_success"
   ],
   "note": ""
  },
  {
   "property": "C24",
   "status": "proved",
   "theorems": [
    "c24_listing_order_does_not_matter"
   ],
   "note": "For two orders of the same tree that both pack (the 256 KiB limit of a table depends on the order); the images then show the same tree."
  },
  {
   "property": "C25",
   "status": "proved",
   "theorems": [
    "c25_volume_detection_is_exact",
    "c25_files_are_devices"
   ],
   "note": ""
  },
  {
   "property": "C26",
   "status": "proved",
   "theorems": [
    "c26_partition_probing",
    "c26_reads_are_shifted"
   ],
   "note": ""
  },
  {
   "property": "C27",
   "status": "proved",
   "theorems": [
    "c27_whole_file_reads"
   ],
   "note": ""
  },
  {
   "property": "C28",
   "status": "partial",
   "theorems": [
    "c28_ranged_reads_inside_partial",
    "c28_ranged_reads_stay_inside_refuted"
   ],
   "note": "Ranges inside the file proved exact. Refuted: a range past the end returns bytes that follow the file."
  },
  {
   "property": "C29",
   "status": "partial",
   "theorems": [
    "c29_path_syntax_partial",
    "c29_only_slashes_refuted"
   ],
   "note": "Proved for every path with a component, the empty path and \"/\". Refuted: \"//\" panics on every image."
  },
  {
   "property": "C30",
   "status": "proved",
   "theorems": [
    "c30_lookups_are_sound"
   ],
   "note": ""
  },
  {
   "property": "C31",
   "status": "proved",
   "theorems": [
    "c31_lookups_are_complete",
    "c31_listings_are_complete"
   ],
   "note": ""
  },
  {
   "property": "C32",
   "status": "partial",
   "theorems": [
    "c32_acyclic_images_terminate_partial",
    "c32_forward_images_terminate_partial",
    "c32_traversal_terminates_refuted",
    "c32_listing_terminates_refuted"
   ],
   "note": "Proved for images without cycles (C118 characterises these). Refuted: a pointer cycle makes a lookup and a listing endless; a directory containing itself makes the listing endless."
  },
  {
   "property": "C33",
   "status": "partial",
   "theorems": [
    "c33_scan_terminates_partial",
    "c33_scan_never_panics_refuted",
    "c33_panics_exactly"
   ],
   "note": "Termination and the bound on entries proved for every device, and exactly when it panics. Refuted: an entry whose name crosses the end of its sector panics."
  },
  {
   "property": "C34",
   "status": "proved",
   "theorems": [
    "c34_copy_into_file_is_exact",
    "c34_copy_into_memory_is_exact",
    "c34_failing_copy_stays_in_range"
   ],
   "note": ""
  },
  {
   "property": "C35",
   "status": "partial",
   "theorems": [
    "c35_memory_write_is_bounded",
    "c35_memory_read_partial",
    "c35_memory_read_never_panics_refuted"
   ],
   "note": "Writes proved bounded. Reads classified completely; refuted: a read that starts inside and ends outside the buffer panics."
  },
  {
   "property": "C36",
   "status": "partial",
   "theorems": [
    "c36_copy_to_start_of_memory_partial",
    "c36_copy_elsewhere_always_panics",
    "c36_copy_into_memory_refuted"
   ],
   "note": "Proved for output offset 0. Refuted for every other offset inside the buffer: index panic."
  },
  {
   "property": "C37",
   "status": "proved",
   "theorems": [
    "c37_sectors_are_those_of_the_packed_image",
    "c37_host_directories"
   ],
   "note": ""
  },
  {
   "property": "C38",
   "status": "partial",
   "theorems": [
    "c38_compressing_an_image_partial",
    "c38_packed_images_are_padded_partial",
    "c38_compressing_a_packed_image_refuted"
   ],
   "note": "Characterised: every image with a file of 1..2047 bytes gives an unreadable sector; without such files all sectors are those of the packed image. Refuted by a file of one byte."
  },
  {
   "property": "C39",
   "status": "proved",
   "theorems": [
    "c39_path_trie_is_a_map"
   ],
   "note": ""
  },
  {
   "property": "C40",
   "status": "proved",
   "theorems": [
    "c40_repacking_preserves_contents",
    "c40_repacking_any_scannable_image",
    "c40_default_copier",
    "c40_std_copier"
   ],
   "note": ""
  },
  {
   "property": "C41",
   "status": "partial",
   "theorems": [
    "c41_names_partial",
    "c41_repacking_accepts_packed_names_refuted"
   ],
   "note": "Characterised: for every well-formed image, repacking never panics if all names are in Latin-1 and always panics otherwise. Refuted as stated: the name U+20AC packs, repacking the resulting image panics (index beyond 256 in the path trie)."
  },
  {
   "property": "C42",
   "status": "proved",
   "theorems": [
    "c42_rewrite_templates"
   ],
   "note": ""
  },
  {
   "property": "C43",
   "status": "proved",
   "theorems": [
    "c43_overlay_shows_the_claims"
   ],
   "note": ""
  },
  {
   "property": "C44",
   "status": "partial",
   "theorems": [
    "c44_mapped_files_are_listed_partial",
    "c44_listed_exactly",
    "c44_mapped_files_are_listed_refuted"
   ],
   "note": "Characterised exactly (c44_listed_exactly), and proved for mapped paths that no other claim runs through. Refuted: a file mapped below another mapped file disappears."
  },
  {
   "property": "C45",
   "status": "proved",
   "theorems": [
    "c45_hashed_bytes",
    "c45_checksum_depends_only_on_contents",
    "c45_packed_images"
   ],
   "note": "For names without slashes."
  },
  {
   "property": "C46",
   "status": "partial",
   "theorems": [
    "c46_hashed_bytes_separate_partial",
    "c46_hashed_bytes_separate_refuted"
   ],
   "note": "Proved for trees of the same shape. Refuted: file contents can imitate a path and a further empty file."
  },
  {
   "property": "C47",
   "status": "partial",
   "theorems": [
    "c47_unpack_partial",
    "c47_slashless_images_partial",
    "c47_unpack_refuted",
    "c47_absolute_refuted",
    "c47_default_destination_refuted"
   ],
   "note": "Proved for images whose names have no slashes, and for names with slashes that are relative and have no \"..\", with an explicit destination. Refuted three times: \"../x\", \"/x\", and the default destination of an image called \"...iso\"."
  },
  {
   "property": "C48",
   "status": "proved",
   "theorems": [
    "c48_unpack"
   ],
   "note": "For trees of valid Unix names into an empty or absent destination."
  },
  {
   "property": "C49",
   "status": "partial",
   "theorems": [
    "c49_unpack_truncated_partial",
    "c49_unpack_truncated_refuted"
   ],
   "note": "Proved: a successful unpack of a truncated image restores the tree except that data may be missing from file ends. Refuted: missing data is not reported."
  },
  {
   "property": "C50",
   "status": "partial",
   "theorems": [
    "c50_create_partial",
    "c50_accepted_arguments_partial",
    "c50_repeated_file_refuted",
    "c50_every_repeated_file_partial",
    "c50_own_file_refuted"
   ],
   "note": "Proved for repeated -c without FILE. Refuted: a FILE after a repeated -c is always rejected; two sources may get the same output."
  },
  {
   "property": "C51",
   "status": "partial",
   "theorems": [
    "c51_one_image_partial",
    "c51_several_images_partial",
    "c51_directories",
    "c51_same_name_refuted",
    "c51_repeated_refuted",
    "c51_deleted_refuted"
   ],
   "note": "Proved: one image, or several with distinct old names, keep a copy. Refuted: a.iso and a.bin share a.old; a repeated failed run destroys the original; -D deletes it after a lost flush error."
  },
  {
   "property": "C52",
   "status": "partial",
   "theorems": [
    "c52_lookups_stable",
    "c52_lookups_unique",
    "c52_listed_numbers_refuted"
   ],
   "note": "Proved for lookup, whatever requests come in between. Refuted for directory listings: two empty files of the same name share a number."
  },
  {
   "property": "C53",
   "status": "proved",
   "theorems": [
    "c53_pages",
    "c53_packed_pages",
    "c53_requests_answered"
   ],
   "note": "For pages with room for two records; with a smaller page the handler drops the reply (EIO)."
  },
  {
   "property": "C54",
   "status": "partial",
   "theorems": [
    "c54_same_number_refuted",
    "c54_never_the_same_partial"
   ],
   "note": "Refuted; stronger, a number given by a listing is never given by a later lookup."
  },
  {
   "property": "C55",
   "status": "proved",
   "theorems": [
    "c55_buffered_output_equals_unbuffered",
    "c55_buffered_host"
   ],
   "note": ""
  },
  {
   "property": "C56",
   "status": "proved",
   "theorems": [
    "c56_utf8_order_is_code_point_order",
    "c56_utf8_length"
   ],
   "note": ""
  },
  {
   "property": "C57",
   "status": "partial",
   "theorems": [
    "c57_packing_into_memory_partial",
    "c57_memory_host",
    "c57_any_large_enough_buffer_refuted",
    "c57_packing_host_files_refuted"
   ],
   "note": "Proved for sources with a memory-capable copier and a buffer of a multiple of 64 KiB. Refuted: a larger buffer that is no such multiple; host files (because of C36)."
  },
  {
   "property": "C58",
   "status": "partial",
   "theorems": [
    "c58_info_partial",
    "c58_info_refuted"
   ],
   "note": "Proved for offsets below 65536. Refuted: a child offset of 65536 panics (debug) or prints 0 (release)."
  },
  {
   "property": "C59",
   "status": "partial",
   "theorems": [
    "c59_flushed_partial",
    "c59_limited_files",
    "c59_success_means_a_complete_image_refuted"
   ],
   "note": "Proved: if pack succeeds and the final flush reports no error, the file holds everything written, on every device that writes or fails. Refuted as stated: errors at the final implicit flush are dropped."
  },
  {
   "property": "C60",
   "status": "partial",
   "theorems": [
    "c60_placeholders_are_replaced_partial",
    "c60_placeholders_are_replaced_refuted"
   ],
   "note": "Proved for captures without an opening brace. Refuted: a captured \"{2}\" is substituted again."
  },
  {
   "property": "C61",
   "status": "partial",
   "theorems": [
    "c61_whole_match_keeps_the_path_partial",
    "c61_whole_match_keeps_the_path_refuted"
   ],
   "note": "Proved for paths that do not start with a dot. Refuted: \".hid\" becomes \"hid\"."
  },
  {
   "property": "C62",
   "status": "proved",
   "theorems": [
    "c62_which_rule_decides",
    "c62_one_rule_decides"
   ],
   "note": ""
  },
  {
   "property": "C63",
   "status": "proved",
   "theorems": [
    "c63_packing_an_overlay"
   ],
   "note": ""
  },
  {
   "property": "C64",
   "status": "partial",
   "theorems": [
    "c64_building_an_overlay_partial",
    "c64_building_an_overlay_refuted"
   ],
   "note": "The outcome is characterised completely. Refuted: a host name beyond U+00FF panics."
  },
  {
   "property": "C65",
   "status": "proved",
   "theorems": [
    "c65_dump_reports_the_mapping"
   ],
   "note": ""
  },
  {
   "property": "C66",
   "status": "proved",
   "theorems": [
    "c66_packed_images",
    "c66_ls",
    "c66_ls_scan"
   ],
   "note": ""
  },
  {
   "property": "C67",
   "status": "proved",
   "theorems": [
    "c67_tree",
    "c67_numbers"
   ],
   "note": ""
  },
  {
   "property": "C68",
   "status": "partial",
   "theorems": [
    "c68_md5_partial",
    "c68_md5_path_partial",
    "c68_md5_lists_only_files_refuted",
    "c68_md5_prints_paths_refuted"
   ],
   "note": "What is printed is characterised. Refuted: directories are listed with a checksum of their table; with a path argument the printed paths have a double slash."
  },
  {
   "property": "C69",
   "status": "proved",
   "theorems": [
    "c69_checksum"
   ],
   "note": ""
  },
  {
   "property": "C70",
   "status": "proved",
   "theorems": [
    "c70_copyout_directory",
    "c70_copyout_file"
   ],
   "note": ""
  },
  {
   "property": "C71",
   "status": "partial",
   "theorems": [
    "c71_output_directory_refuted",
    "c71_beside_partial"
   ],
   "note": "Proved where the image really goes: into the directory that contains DIR. Refuted as stated: it is not written to DIR unless DIR is the root."
  },
  {
   "property": "C72",
   "status": "partial",
   "theorems": [
    "c72_source_image",
    "c72_one_file",
    "c72_source_directory_partial",
    "c72_source_directory_refuted"
   ],
   "note": "Proved for image sources, and that only the output is written. Refuted: an output inside the source directory is accepted when spelled with \"..\" and not existing yet."
  },
  {
   "property": "C73",
   "status": "proved",
   "theorems": [
    "c73_rewriting_preserves_contents",
    "c73_rewriting_any_image"
   ],
   "note": ""
  },
  {
   "property": "C74",
   "status": "proved",
   "theorems": [
    "c74_lookups_succeed",
    "c74_mounted_tree"
   ],
   "note": ""
  },
  {
   "property": "C75",
   "status": "partial",
   "theorems": [
    "c75_missing_name_refuted",
    "c75_missing_name_fails_partial"
   ],
   "note": "Refuted: EIO instead of ENOENT. Proved: it does fail, and changes nothing."
  },
  {
   "property": "C76",
   "status": "partial",
   "theorems": [
    "c76_beyond_the_end_refuted",
    "c76_at_the_end_refuted",
    "c76_always_at_the_end_partial"
   ],
   "note": "Refuted twice: a read across the end returns foreign bytes, a read at the end fails. Reads inside the file: C74."
  },
  {
   "property": "C77",
   "status": "proved",
   "theorems": [
    "c77_pack_directory"
   ],
   "note": ""
  },
  {
   "property": "C78",
   "status": "proved",
   "theorems": [
    "c78_round_trip"
   ],
   "note": ""
  },
  {
   "property": "C79",
   "status": "partial",
   "theorems": [
    "c79_map_rules_partial",
    "c79_map_rules_refuted"
   ],
   "note": "Proved for arguments with at most one colon. Refuted: a pattern with a colon (a wax repetition) cannot be given; what follows a second colon is dropped."
  },
  {
   "property": "C80",
   "status": "partial",
   "theorems": [
    "c80_equivalent_spec_partial",
    "c80_output_option_refuted",
    "c80_output_option_ignored_partial",
    "c80_repeated_pattern_refuted"
   ],
   "note": "Proved for distinct patterns when -O is absent or an image path is given. Refuted twice: -O is ignored by build-image (proved for all runs); of rules with the same pattern the spec keeps the last."
  },
  {
   "property": "C81",
   "status": "partial",
   "theorems": [
    "c81_image_path_partial",
    "c81_spec_file_partial",
    "c81_current_directory_refuted",
    "c81_spec_file_refuted"
   ],
   "note": "Proved for directories other than \".\" and spec files that are not a bare name, or when an output or image path is given. Refuted twice: build-image . and build-image xdvdfs.toml fail."
  },
  {
   "property": "C82",
   "status": "proved",
   "theorems": [
    "c82_one_file",
    "c82_dry_run",
    "c82_overlay_first"
   ],
   "note": ""
  },
  {
   "property": "C83",
   "status": "proved",
   "theorems": [
    "c83_built_image"
   ],
   "note": ""
  },
  {
   "property": "C84",
   "status": "partial",
   "theorems": [
    "c84_source_kept_partial",
    "c84_source_kept_refuted"
   ],
   "note": "Proved for images outside of the source directory. Refuted: an image path naming a mapped file replaces it."
  },
  {
   "property": "C85",
   "status": "partial",
   "theorems": [
    "c85_never_reports_partial",
    "c85_page_partial",
    "c85_pack_refuted",
    "c85_unrepresentable_refuted",
    "c85_unpack_refuted"
   ],
   "note": "Refuted three times: missing sources, unrepresentable directories and invalid images are reported as success. Proved: no command ever reports an error."
  },
  {
   "property": "C86",
   "status": "proved",
   "theorems": [
    "c86_pack_directory"
   ],
   "note": ""
  },
  {
   "property": "C87",
   "status": "partial",
   "theorems": [
    "c87_source_kept_partial",
    "c87_only_the_output",
    "c87_source_kept_refuted"
   ],
   "note": "Proved for outputs outside of the source; only the output changes in any case. Refuted: packing an image onto itself leaves an empty file and reports success."
  },
  {
   "property": "C88",
   "status": "proved",
   "theorems": [
    "c88_like_the_command",
    "c88_unpack"
   ],
   "note": ""
  },
  {
   "property": "C89",
   "status": "partial",
   "theorems": [
    "c89_no_crash_partial",
    "c89_one_job",
    "c89_no_crash_refuted"
   ],
   "note": "One job at a time, with disabled buttons: proved. No panic: proved for inputs with a file name. Refuted: choosing / makes the page panic."
  },
  {
   "property": "C90",
   "status": "partial",
   "theorems": [
    "c90_one_job",
    "c90_no_crash_partial",
    "c90_no_crash_refuted"
   ],
   "note": "One job at a time: proved. No panic: proved if an input is chosen before every output. Refuted: choosing a second output panics."
  },
  {
   "property": "C91",
   "status": "partial",
   "theorems": [
    "c91_patient_partial",
    "c91_one_job_refuted",
    "c91_no_crash_refuted"
   ],
   "note": "Proved for users who wait for the end of a job. Refuted twice: buttons stay enabled while sectors are compressed, so a second job can be started, and changing the kind of the input then leads to a panic."
  },
  {
   "property": "C92",
   "status": "proved",
   "theorems": [
    "c92_progress",
    "c92_during_packing",
    "c92_start",
    "c92_fresh"
   ],
   "note": ""
  },
  {
   "property": "C93",
   "status": "proved",
   "theorems": [
    "c93_pack",
    "c93_repack"
   ],
   "note": ""
  },
  {
   "property": "C94",
   "status": "proved",
   "theorems": [
    "c94_order"
   ],
   "note": ""
  },
  {
   "property": "C95",
   "status": "proved",
   "theorems": [
    "c95_sectors"
   ],
   "note": ""
  },
  {
   "property": "C96",
   "status": "partial",
   "theorems": [
    "c96_unpack_partial",
    "c96_empty_file_refuted",
    "c96_truncated_refuted"
   ],
   "note": "Proved for complete images and destinations without other files where the image has empty ones. Refuted twice: an empty file does not replace an existing file, and missing file data is not noticed."
  },
  {
   "property": "C97",
   "status": "proved",
   "theorems": [
    "c97_stays_below"
   ],
   "note": ""
  },
  {
   "property": "C98",
   "status": "partial",
   "theorems": [
    "c98_progress_partial",
    "c98_empty_files_partial",
    "c98_progress_refuted"
   ],
   "note": "Proved for images without empty files; in general, empty files are announced but not reported, which refutes the property."
  },
  {
   "property": "C99",
   "status": "proved",
   "theorems": [
    "c99_unpack_slow",
    "c99_copyout_slow",
    "c99_compress",
    "c99_unpack_in_place",
    "c99_exiso_extract",
    "c99_unpack_complete",
    "c99_unpack",
    "c99_copyout",
    "c99_pack",
    "c99_exiso_create",
    "c99_exiso_rewrite",
    "c99_build_image",
    "c99_browser_unpack"
   ],
   "note": ""
  },
  {
   "property": "C100",
   "status": "proved",
   "theorems": [
    "c100_pack_image"
   ],
   "note": ""
  },
  {
   "property": "C101",
   "status": "proved",
   "theorems": [
    "c101_read_only"
   ],
   "note": ""
  },
  {
   "property": "C102",
   "status": "proved",
   "theorems": [
    "c102_volume"
   ],
   "note": ""
  },
  {
   "property": "C103",
   "status": "partial",
   "theorems": [
    "c103_restores_and_keeps",
    "c103_image_kept_partial",
    "c103_image_kept_refuted",
    "c103_no_image_no_change"
   ],
   "note": "Proved for free destinations, and for all images outside of the destination. Refuted: an image that contains a file of its own name is destroyed when it is unpacked into its own directory, all files come out empty and success is reported."
  },
  {
   "property": "C104",
   "status": "partial",
   "theorems": [
    "c104_extract_all",
    "c104_same_name_refuted",
    "c104_directory_refuted"
   ],
   "note": "Proved for images of different names. Refuted: images of the same name, and all images with -d, are merged into one directory; files of the first are replaced silently."
  },
  {
   "property": "C105",
   "status": "proved",
   "theorems": [
    "c105_list"
   ],
   "note": ""
  },
  {
   "property": "C106",
   "status": "partial",
   "theorems": [
    "c106_output_outside_partial",
    "c106_accepts",
    "c106_inside_refuted",
    "c106_itself_refuted",
    "c106_mixed_refuted"
   ],
   "note": "Proved for paths that are spelled alike; all other outputs are accepted. Refuted: a source spelled with \"./\" is not recognised, neither as the output nor as containing it; nor is an absolute source with a relative output."
  },
  {
   "property": "C107",
   "status": "partial",
   "theorems": [
    "c107_no_panic_partial",
    "c107_default_output",
    "c107_nameless",
    "c107_no_panic_refuted"
   ],
   "note": "Characterised: it panics exactly if no output is given and the source has no file name. Refuted: \"compress .\" panics."
  },
  {
   "property": "C108",
   "status": "proved",
   "theorems": [
    "c108_parts"
   ],
   "note": ""
  },
  {
   "property": "C109",
   "status": "proved",
   "theorems": [
    "c109_listing",
    "c109_copying"
   ],
   "note": ""
  },
  {
   "property": "C110",
   "status": "proved",
   "theorems": [
    "c110_bad_spec"
   ],
   "note": ""
  },
  {
   "property": "C111",
   "status": "proved",
   "theorems": [
    "c111_browser_counts",
    "c111_desktop_counts",
    "c111_never_back",
    "c111_end"
   ],
   "note": ""
  },
  {
   "property": "C112",
   "status": "proved",
   "theorems": [
    "c112_options"
   ],
   "note": ""
  },
  {
   "property": "C113",
   "status": "partial",
   "theorems": [
    "c113_status_partial",
    "c113_forked_partial",
    "c113_status_refuted"
   ],
   "note": "Proved with nofork. Refuted: after forking the status is 0 in any case, also for a file that is no image."
  },
  {
   "property": "C114",
   "status": "partial",
   "theorems": [
    "c114_no_panic_partial",
    "c114_directory_refuted"
   ],
   "note": "Proved for sources that are not directories. Refuted: mounting a directory panics."
  },
  {
   "property": "C115",
   "status": "partial",
   "theorems": [
    "c115_attributes_partial",
    "c115_blocks_refuted",
    "c115_search_refuted"
   ],
   "note": "Read-only, and enough blocks of 2048 bytes: proved. Refuted: block counts are too small in units of 512 bytes, and directories cannot be searched under default_permissions."
  },
  {
   "property": "C116",
   "status": "proved",
   "theorems": [
    "c116_same_result",
    "c116_success",
    "c116_restores"
   ],
   "note": ""
  },
  {
   "property": "C117",
   "status": "partial",
   "theorems": [
    "c117_directory",
    "c117_file",
    "c117_image_kept_partial",
    "c117_image_kept_refuted"
   ],
   "note": "Proved for destinations that are neither the image nor contain it. Refuted: copying a file out over its own image leaves an empty file and reports success."
  },
  {
   "property": "C118",
   "status": "proved",
   "theorems": [
    "c118_lookup",
    "c118_table",
    "c118_table_success",
    "c118_tree",
    "c118_tree_success"
   ],
   "note": ""
  },
  {
   "property": "C119",
   "status": "proved",
   "theorems": [
    "c119_scan"
   ],
   "note": ""
  },
  {
   "property": "C120",
   "status": "partial",
   "theorems": [
    "c120_repacking_keeps_everything_partial",
    "c120_packed_images_are_tidy",
    "c120_repacking_keeps_everything_refuted",
    "c120_repacking_adds_nothing_refuted"
   ],
   "note": "Proved for images whose records lie one behind the other from the beginning of each sector, without others; all packed images are such. Refuted twice: behind a gap files are lost without a message, and records that are not part of the tree any more come back."
  },
  {
   "property": "C121",
   "status": "partial",
   "theorems": [
    "c121_listing_is_the_directory_partial",
    "c121_lists_all_refuted",
    "c121_lists_only_refuted"
   ],
   "note": "Proved for the same images as C120. Refuted twice: a file behind a gap is found but not listed, an old record is listed but not found."
  },
  {
   "property": "C122",
   "status": "proved",
   "theorems": [
    "c122_volume",
    "c122_lookup",
    "c122_listing",
    "c122_scan",
    "c122_tree",
    "c122_data",
    "c122_data_at",
    "c122_checksum",
    "c122_truncated"
   ],
   "note": ""
  },
  {
   "property": "C123",
   "status": "partial",
   "theorems": [
    "c123_commands_partial",
    "c123_commands_refuted"
   ],
   "note": "Proved for files whose partition is at the start or still found at the same place. Refuted: a truncated file with two partitions shows the other one without an error."
  },
  {
   "property": "C124",
   "status": "proved",
   "theorems": [
    "c124_trailing_data"
   ],
   "note": ""
  },
  {
   "property": "C125",
   "status": "partial",
   "theorems": [
    "c125_sources_partial",
    "c125_images_partial",
    "c125_images_refuted"
   ],
   "note": "Proved for all sources whose failures are errors, and for images with the default copier. Refuted: StdIOCopier, used on the command line, stops at the end of a truncated image without an error, and the missing data becomes zeros."
  },
  {
   "property": "C126",
   "status": "proved",
   "theorems": [
    "c126_position"
   ],
   "note": ""
  },
  {
   "property": "C127",
   "status": "partial",
   "theorems": [
    "c127_tree_partial",
    "c127_checksum_partial",
    "c127_ls_partial",
    "c127_md5_partial",
    "c127_info_partial",
    "c127_unpack_partial",
    "c127_copyout_partial",
    "c127_ls_refuted",
    "c127_md5_refuted",
    "c127_unpack_refuted",
    "c127_scan_refuted"
   ],
   "note": "Proved for tree and checksum without conditions; for ls without the scan, md5, info in release builds and copy-out except for paths of two slashes or more; unpack panics exactly if it is given no destination and the image path has no last component. Refuted for \"//\", for \"unpack ..\", and for ls with the scan (C33); info in debug builds, see C58."
  },
  {
   "property": "C128",
   "status": "proved",
   "theorems": [
    "c128_tree",
    "c128_checksum",
    "c128_md5",
    "c128_md5_path",
    "c128_ls",
    "c128_info",
    "c128_unpack",
    "c128_copyout"
   ],
   "note": ""
  },
  {
   "property": "C129",
   "status": "proved",
   "theorems": [
    "c129_holds",
    "c129_result",
    "c129_bytes"
   ],
   "note": ""
  },
  {
   "property": "C130",
   "status": "partial",
   "theorems": [
    "c130_holds_partial",
    "c130_result",
    "c130_copier",
    "c130_length_partial",
    "c130_length_refuted"
   ],
   "note": "Proved: the data in front is kept, the tree is in the partition, and success is as for an empty file. The length is characterised when the old image is at least as long. Refuted: len is that of the whole file, so padding is written too far behind by the offset of the partition."
  },
  {
   "property": "C131",
   "status": "partial",
   "theorems": [
    "c131_start_partial",
    "c131_position_partial",
    "c131_refuted"
   ],
   "note": "Proved for seeking from the start. Refuted: the position returned counts from the start of the file."
  },
  {
   "property": "C132",
   "status": "proved",
   "theorems": [
    "c132_status",
    "c132_exiso_status",
    "c132_success_is_complete",
    "c132_readers",
    "c132_list_reads",
    "c132_quiet",
    "c132_same_program",
    "c132_default_mode"
   ],
   "note": ""
  },
  {
   "property": "C133",
   "status": "proved",
   "theorems": [
    "c133_checksum",
    "c133_checksum_stops",
    "c133_list",
    "c133_unpack",
    "c133_pack_then_unpack"
   ],
   "note": ""
  },
  {
   "property": "C134",
   "status": "proved",
   "theorems": [
    "c134_read",
    "c134_write",
    "c134_image_fs",
    "c134_building",
    "c134_overlay",
    "c134_causes"
   ],
   "note": ""
  },
  {
   "property": "C135",
   "status": "proved",
   "theorems": [
    "c135_image_path",
    "c135_one_path",
    "c135_matched_text",
    "c135_below_a_match"
   ],
   "note": "For templates whose captures have no opening braces (C60)."
  },
  {
   "property": "C136",
   "status": "proved",
   "theorems": [
    "c136_names_are_ordinary",
    "c136_unpacks_below"
   ],
   "note": ""
  },
  {
   "property": "C137",
   "status": "partial",
   "theorems": [
    "c137_built_images_unpack_partial",
    "c137_built_images_unpack_refuted"
   ],
   "note": "Proved for rules whose targets have no \".\", \"..\" or NUL as names. Refuted: the target a/../y builds an image that cannot be unpacked."
  },
  {
   "property": "C138",
   "status": "proved",
   "theorems": [
    "c138_base_of",
    "c138_base_of_root",
    "c138_suffix_of",
    "c138_as_string",
    "c138_as_string_distinguishes",
    "c138_as_path_buf"
   ],
   "note": ""
  },
  {
   "property": "C139",
   "status": "partial",
   "theorems": [
    "c139_repack_partial",
    "c139_unpack_partial",
    "c139_copyout_partial",
    "c139_extract_partial",
    "c139_web_partial",
    "c139_pack_partial",
    "c139_pack_refuted",
    "c139_rewrite_refuted"
   ],
   "note": "Proved for unpack, copy-out, extract-xiso -x, repacking in the browser, and the library's repacking; for pack up to the output, which can be emptied. Refuted: pack empties an existing output before it looks at the source, and extract-xiso -r moves a file that is no image away and leaves an empty one."
  },
  {
   "property": "C140",
   "status": "proved",
   "theorems": [
    "c140_directories",
    "c140_file",
    "c140_host_directory",
    "c140_plain_directory"
   ],
   "note": ""
  },
  {
   "property": "C141",
   "status": "proved",
   "theorems": [
    "c141_pack_image",
    "c141_rewrite",
    "c141_unpack_and_pack"
   ],
   "note": ""
  },
  {
   "property": "C142",
   "status": "partial",
   "theorems": [
    "c142_pack_partial",
    "c142_compress_partial",
    "c142_unpack_partial",
    "c142_busy_partial",
    "c142_phase_partial",
    "c142_panic_refuted"
   ],
   "note": "Proved for jobs that do not panic. Refuted: packing from an image with a name above U+00FF panics in the command of the desktop application, which then never answers; the page stays locked."
  },
  {
   "property": "C143",
   "status": "partial",
   "theorems": [
    "c143_percent_partial",
    "c143_percent_refuted"
   ],
   "note": "Proved up to 42949672 files or sectors. Refuted: 100 * done overflows u32 beyond that (88 GB); the page panics or shows 0."
  },
  {
   "property": "C144",
   "status": "proved",
   "theorems": [
    "c144_same",
    "c144_packed",
    "c144_any_packed",
    "c144_foreign",
    "c144_empty"
   ],
   "note": ""
  },
  {
   "property": "C145",
   "status": "proved",
   "theorems": [
    "c145_builds_agree",
    "c145_same_packs"
   ],
   "note": ""
  },
  {
   "property": "C146",
   "status": "partial",
   "theorems": [
    "c146_same_image_partial",
    "c146_order_refuted",
    "c146_again_refuted"
   ],
   "note": "Proved for the same order of listing. Refuted: another order gives another balanced tree and so other bytes (four files suffice); packing an image made by this library again does so, too."
  },
  {
   "property": "C147",
   "status": "partial",
   "theorems": [
    "c147_packed_partial",
    "c147_growth",
    "c147_files",
    "c147_bytes",
    "c147_unpack_refuted"
   ],
   "note": "Proved for images made by this library. Refuted for others: directories that share a table make an image of 68 + 2n KiB unpack to 2^n files of 2 KiB."
  },
  {
   "property": "C148",
   "status": "partial",
   "theorems": [
    "c148_pages_partial",
    "c148_answered",
    "c148_answered_refuted"
   ],
   "note": "Proved: a listing that is answered to its end is complete, and exactly when requests are answered. Refuted: with room for one record the first request fails with EIO."
  },
  {
   "property": "C149",
   "status": "proved",
   "theorems": [
    "c149_rewrite",
    "c149_failed_rewrite",
    "c149_extract",
    "c149_create",
    "c149_round_trip",
    "c149_copy_out"
   ],
   "note": ""
  },
  {
   "property": "C150",
   "status": "partial",
   "theorems": [
    "c150_pack_partial",
    "c150_one_dialog_partial",
    "c150_compress_partial",
    "c150_unpack_partial",
    "c150_cancel",
    "c150_two_jobs_refuted",
    "c150_kind_refuted",
    "c150_unpack_refuted"
   ],
   "note": "Proved where an open dialog locks the page (it then equals C89-C91). Refuted where it does not: two jobs at once, an input of the wrong kind, a panic."
  },
  {
   "property": "C151",
   "status": "partial",
   "theorems": [
    "c151_partial",
    "c151_growing",
    "c151_others",
    "c151_result",
    "c151_refuted"
   ],
   "note": "Proved that what was listed is found, that files that did not become shorter are intact, and that the image is the expected one up to missing zeros at its end. Refuted that everything can be read: a file that became shorter may lie behind the end of the image."
  },
  {
   "property": "C152",
   "status": "partial",
   "theorems": [
    "c152_pack",
    "c152_options_partial",
    "c152_spec_partial",
    "c152_inside_refuted"
   ],
   "note": "Proved for pack, and for build-image with an image outside of the source directory, whatever the result. Refuted for an image inside of it, which build-image accepts: the second image contains the first one."
  },
  {
   "property": "C153",
   "status": "partial",
   "theorems": [
    "c153_buffer_partial",
    "c153_empty",
    "c153_size",
    "c153_buffer_refuted"
   ],
   "note": "Proved for buffers that are not larger than the file. Refuted for larger ones: they get the bytes behind the file, and at the end of the image reading fails although the file is complete."
  },
  {
   "property": "C154",
   "status": "proved",
   "theorems": [
    "c154_root_entry"
   ],
   "note": ""
  },
  {
   "property": "C155",
   "status": "partial",
   "theorems": [
    "c155_success_partial",
    "c155_over_partial",
    "c155_again",
    "c155_again_refuted"
   ],
   "note": "Proved that success means that everything is there and nothing else changed, and that unpacking succeeds if directories have free places and files do not fall on directories. Refuted for directories that are there already: unpacking an image with a directory twice to the same place fails."
  },
  {
   "property": "C156",
   "status": "partial",
   "theorems": [
    "c156_reads_partial",
    "c156_low_offsets",
    "c156_total_release",
    "c156_total_debug",
    "c156_total_panic",
    "c156_total_refuted",
    "c156_capacity_refuted",
    "c156_wrapped_refuted",
    "c156_scan_refuted"
   ],
   "note": "Proved that everything that is read successfully from an image in memory on a 64-bit platform is read with the same result on a 32-bit one, and what the total of tree is. Refuted in four places: the total wraps or panics from 4 GiB on, files of 2 GiB panic, offsets are cut to 32 bits, and the end of a directory table can overflow."
  },
  {
   "property": "C157",
   "status": "partial",
   "theorems": [
    "c157_below_partial",
    "c157_below_refuted"
   ],
   "note": "Proved for names without separators and colons, on the level of paths, for destinations that do not begin with two separators. Refuted for names such as ..\\\\x, \\\\x and d:x, which are plain names in an image."
  },
  {
   "property": "C158",
   "status": "partial",
   "theorems": [
    "c158_output",
    "c158_page_partial",
    "c158_page_refuted"
   ],
   "note": "The output is proved right for all failures (c158_output). That the page learns of failures is proved for calls on the stream and for files, and refuted for listing the source, opening and closing the output, and files that become shorter: these panic."
  },
  {
   "property": "C159",
   "status": "partial",
   "theorems": [
    "c159_simple_requests",
    "c159_listing_ends",
    "c159_listing_partial",
    "c159_lookup_partial",
    "c159_listing_refuted",
    "c159_lookup_refuted"
   ],
   "note": "Proved without conditions for mounting, getattr, open, read, and for the end of every listing. Partial for the answers of listings (a name crossing the end of a sector makes the daemon panic, c159_listing_refuted) and of lookups (a circle in a table makes the daemon hang, c159_lookup_refuted); for lookups the condition is exact."
  },
  {
   "property": "C160",
   "status": "partial",
   "theorems": [
    "c160_traversal",
    "c160_mounted",
    "c160_copying",
    "c160_whole_files_partial",
    "c160_whole_files_refuted"
   ],
   "note": "Proved for everything but whole files, which need the size that the record claims (c160_whole_files_partial). Refuted for these: an image of less than 70000 bytes makes checksum fill a buffer of 4294967295 bytes."
  },
  {
   "property": "C161",
   "status": "proved",
   "theorems": [
    "c161_reading",
    "c161_unpack",
    "c161_pack",
    "c161_repack",
    "c161_compress",
    "c161_rounding",
    "c161_slices"
   ],
   "note": "The floating point model of the browser back end equals the exact one without conditions. Sizes of buffers of the browser itself are as in M_Web."
  },
  {
   "property": "C162",
   "status": "partial",
   "theorems": [
    "c162_still",
    "c162_intermittent",
    "c162_no_panic",
    "c162_scan_ends",
    "c162_atomic_refuted"
   ],
   "note": "c162_atomic_refuted: entries are not read atomically; the rest is proved."
  },
  {
   "property": "C163",
   "status": "proved",
   "theorems": [
    "c163_scan",
    "c163_list",
    "c163_lookup",
    "c163_data",
    "c163_probe"
   ],
   "note": "The requests are those of BlockDeviceRead; buffering below (BufReader) is not modelled."
  },
  {
   "property": "C164",
   "status": "partial",
   "theorems": [
    "c164_apart_partial",
    "c164_ascii",
    "c164_no_folding",
    "c164_all_files_refuted"
   ],
   "note": "c164_all_files_refuted: files whose names differ in the case of letters outside ASCII overwrite each other. Proved if folded names stay apart, in particular for ASCII folding."
  },
  {
   "property": "C165",
   "status": "partial",
   "theorems": [
    "c165_flushed_partial",
    "c165_complete",
    "c165_silent",
    "c165_closed",
    "c165_success_means_complete_files_refuted"
   ],
   "note": "c165_success_means_complete_files_refuted: the flush when a writer is dropped may fail unseen. Proved if it succeeds."
  },
  {
   "property": "C166",
   "status": "partial",
   "theorems": [
    "c166_attributes_kept",
    "c166_looked_up",
    "c166_same_number_same_attributes",
    "c166_same_number_same_entry",
    "c166_read_place",
    "c166_read_unchanged",
    "c166_no_panic",
    "c166_present_contents_refuted"
   ],
   "note": "c166_present_contents_refuted: what is read can be the contents of another file. The rest is proved."
  },
  {
   "property": "C167",
   "status": "partial",
   "theorems": [
    "c167_commands",
    "c167_same_partial",
    "c167_right",
    "c167_packed",
    "c167_elsewhere",
    "c167_same_refuted"
   ],
   "note": "c167_same_refuted: compressed images are not searched for the partition. Proved for partitions at the beginning; for others every command fails (c167_elsewhere)."
  },
  {
   "property": "C168",
   "status": "partial",
   "theorems": [
    "c168_complete",
    "c168_each",
    "c168_no_half_files",
    "c168_succeeds",
    "c168_failures_are_reported_refuted"
   ],
   "note": "c168_failures_are_reported_refuted: failures to open or to close a file panic. Everything else is proved for all calls and failures."
  },
  {
   "property": "C169",
   "status": "partial",
   "theorems": [
    "c169_same_or_error_partial",
    "c169_success_partial",
    "c169_pieces_partial",
    "c169_untroubled",
    "c169_only_whole_files_refuted"
   ],
   "note": "c169_only_whole_files_refuted: an empty file may be left. Missing in the partial theorems: files with several volumes, where a failing read may lead to another volume."
  },
  {
   "property": "C170",
   "status": "proved",
   "theorems": [
    "c170_alike",
    "c170_file",
    "c170_browser"
   ],
   "note": "Proved for all destinations, sources and relations between them; relates the models of C158 and C93."
  },
  {
   "property": "C171",
   "status": "partial",
   "theorems": [
    "c171_listing",
    "c171_listable_partial",
    "c171_sealed",
    "c171_special",
    "c171_success",
    "c171_only_selected_files_matter_refuted"
   ],
   "note": "c171_listable_partial: for directories with plain files and directories only (files that are not selected may be sealed). Missing: links and the like that no rule selects make it fail (c171_only_selected_files_matter_refuted); c171_special proves that this is always reported."
  },
  {
   "property": "C172",
   "status": "partial",
   "theorems": [
    "c172_read",
    "c172_read_failure",
    "c172_pack",
    "c172_failure",
    "c172_compress_partial",
    "c172_compress_refuted"
   ],
   "note": "c172_compress_partial: calls that give at least a sector, or fail. Missing: compressing a directory with shorter answers loses data silently (c172_compress_refuted)."
  },
  {
   "property": "C173",
   "status": "proved",
   "theorems": [
    "c173_tells",
    "c173_unchanged"
   ],
   "note": "The converse does not hold: a dry run may succeed where the image cannot be built (Example c173_dry_only)."
  },
  {
   "property": "C174",
   "status": "partial",
   "theorems": [
    "c174_lines_partial",
    "c174_numbers",
    "c174_any_run",
    "c174_told_once_refuted"
   ],
   "note": "c174_lines_partial: numbers, sectors, and one line that says dir per directory. Missing: a directory other than the root is also told by a line that says file (c174_told_once_refuted)."
  },
  {
   "property": "C175",
   "status": "proved",
   "theorems": [
    "c175_lines",
    "c175_failure",
    "c175_same"
   ],
   "note": "A destination that ends in a slash is written with it; lines then begin otherwise (not covered by c175_lines; c175_failure and c175_same cover it)."
  },
  {
   "property": "C176",
   "status": "partial",
   "theorems": [
    "c176_listed",
    "c176_sectors",
    "c176_files_partial",
    "c176_refuses_as_pack_refuted"
   ],
   "note": "Missing for c176_files_partial: empty files, which compress never opens (c176_refuses_as_pack_refuted)."
  },
  {
   "property": "C177",
   "status": "partial",
   "theorems": [
    "c177_lines_partial",
    "c177_from_image",
    "c177_told_once_refuted"
   ],
   "note": "Missing: a directory other than the root is also told by a line that says file (c177_told_once_refuted)."
  }
 ]
}
