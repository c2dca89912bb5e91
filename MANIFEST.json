{
 "claims": [
  {
   "property": "C01",
   "status": "proved",
   "theorems": [
    "C01_split_join",
    "C01_join_split"
   ],
   "note": "utils_string.cpp SplitString(item, delimiter), full characterisation and the converse round trip"
  },
  {
   "property": "C02",
   "status": "proved",
   "theorems": [
    "C02_split_words",
    "C02_words_unique",
    "C02_trailing_blank_repeats",
    "C02_blank",
    "C02_split_words_refuted",
    "C02_space_characters"
   ],
   "note": "full behaviour characterised; unrestricted claim refuted (trailing blank repeats the last word)"
  },
  {
   "property": "C03",
   "status": "proved",
   "theorems": [
    "C03_trim",
    "C03_trimspaces",
    "C03_unique",
    "C03_idempotent",
    "C03_same_function"
   ],
   "note": "Trim and TrimSpaces, and that they are the same function"
  },
  {
   "property": "C04",
   "status": "proved",
   "theorems": [
    "C04_match_iff",
    "C04_match_equivalence",
    "C04_upper"
   ],
   "note": "C locale"
  },
  {
   "property": "C05",
   "status": "proved",
   "theorems": [
    "C05_IsInt_roundtrip",
    "C05_IsInt_exact",
    "C05_IsInt64_exact",
    "C05_IsUInt64_exact",
    "C05_text_canonical",
    "C05_canonical_unique",
    "C05_digit_characters"
   ],
   "note": "IsInt, IsInt64, IsUInt64 accept exactly the canonical texts"
  },
  {
   "property": "C06",
   "status": "proved",
   "theorems": [
    "C06_copy",
    "C06_update",
    "C06_keys_unique",
    "C06_initial_header"
   ],
   "note": "UpdateMap/CopyMap for string and number headers"
  },
  {
   "property": "C07",
   "status": "proved",
   "theorems": [
    "C07_last_writer_wins",
    "C07_untouched",
    "C07_keys_unique"
   ],
   "note": "any history of updates"
  },
  {
   "property": "C08",
   "status": "proved",
   "theorems": [
    "C08_init_1d",
    "C08_init_1d_refused",
    "C08_init_1d_copy",
    "C08_copy_failure_refuted"
   ],
   "note": "plain form; copying form with null source refuted"
  },
  {
   "property": "C09",
   "status": "proved",
   "theorems": [
    "C09_init_2d",
    "C09_writes",
    "C09_read",
    "C09_release",
    "C09_zero_rows_refuted",
    "C09_pool_failure_leak"
   ],
   "note": "zero-row release and failed pool allocation refuted"
  },
  {
   "property": "C10",
   "status": "proved",
   "theorems": [
    "C10_in",
    "C10_remove",
    "C10_remove_count",
    "C10_in_after_remove"
   ],
   "note": "removal of every occurrence"
  },
  {
   "property": "C11",
   "status": "proved",
   "theorems": [
    "C11_leap_year",
    "C11_day_of_year"
   ],
   "note": "years >= -4799"
  },
  {
   "property": "C12",
   "status": "proved",
   "theorems": [
    "C12_next_day",
    "C12_counts",
    "C12_monotone",
    "C12_injective",
    "C12_in_range",
    "C12_next_day_refuted"
   ],
   "note": "years >= -4799; earlier years refuted"
  },
  {
   "property": "C13",
   "status": "proved",
   "theorems": [
    "C13_forward",
    "C13_backward",
    "C13_honours_argument_refuted"
   ],
   "note": "argument ignored, refuted"
  },
  {
   "property": "C14",
   "status": "proved",
   "theorems": [
    "C14_max",
    "C14_min",
    "C14_nan_refuted"
   ],
   "note": "any strict weak order; NaN refuted"
  },
  {
   "property": "C15",
   "status": "proved",
   "theorems": [
    "C15_sum",
    "C15_sum_selected",
    "C15_sum_int",
    "C15_sum_int_refuted",
    "C15_sum_float_refuted"
   ],
   "note": "every team split of a commutative monoid sum; overflow and rounding refuted"
  },
  {
   "property": "C16",
   "status": "proved",
   "theorems": [
    "C16_statistics",
    "C16_statistics_layers",
    "C16_out_of_range_refuted"
   ],
   "note": "exact arithmetic; values outside float range refuted"
  },
  {
   "property": "C17",
   "status": "proved",
   "theorems": [
    "C17_pieces",
    "C17_replace_suffix",
    "C17_append_prefix",
    "C17_directory_dot_refuted",
    "C17_empty_suffix_refuted",
    "C17_existing_directory_refuted"
   ],
   "note": "realpath and directory test arbitrary; false corners refuted"
  },
  {
   "property": "C18",
   "status": "proved",
   "theorems": [
    "C18_load",
    "C18_kept_unique",
    "C18_missing",
    "C18_read_error_refuted"
   ],
   "note": "any text; read error never returns"
  },
  {
   "property": "C19",
   "status": "proved",
   "theorems": [
    "C19_accepted",
    "C19_dotted_quad",
    "C19_component_above",
    "C19_only_addresses_refuted"
   ],
   "note": "exact accepted set; over-acceptance refuted"
  },
  {
   "property": "C20",
   "status": "proved",
   "theorems": [
    "C20_round_trip",
    "C20_names"
   ],
   "note": "names up to case"
  },
  {
   "property": "C21",
   "status": "proved",
   "theorems": [
    "C21_position",
    "C21_outside",
    "C21_full",
    "C21_search",
    "C21_emptied_layers_refuted"
   ],
   "note": "binary search and positions; false claim on an emptied multi-layer raster refuted"
  },
  {
   "property": "C22",
   "status": "proved",
   "theorems": [
    "C22_constructor_full",
    "C22_constructor2d_full",
    "C22_compaction",
    "C22_row_major",
    "C22_again",
    "C22_other_layers_refuted"
   ],
   "note": "single result for every schedule; layers above the first refuted"
  },
  {
   "property": "C23",
   "status": "proved",
   "theorems": [
    "C23_set_stored",
    "C23_set_elsewhere",
    "C23_read_total",
    "C23_history",
    "C23_history_progress",
    "C23_emptied_layers",
    "C23_emptied_layers_refuted"
   ],
   "note": "per-call and history refinement; emptied multi-layer raster refuted"
  },
  {
   "property": "C24",
   "status": "proved",
   "theorems": [
    "C24_replace",
    "C24_replace_general"
   ],
   "note": "arbitrary comparison, any schedule"
  },
  {
   "property": "C25",
   "status": "proved",
   "theorems": [
    "C25_all_mapped",
    "C25_unmapped_throws",
    "C25_unmapped_nodata_refuted"
   ],
   "note": "all-mapped case, exact state at the exception, documented NoData treatment refuted"
  },
  {
   "property": "C26",
   "status": "proved",
   "theorems": [
    "C26_centre_round_trip",
    "C26_centre_position",
    "C26_double_round_trip",
    "C26_double_position"
   ],
   "note": "Exact arithmetic for every geometry; binary64 when the cell size is within 2^\u00b1900, the origin within 2^40 cells of zero and the counts fit int."
  },
  {
   "property": "C27",
   "status": "proved",
   "theorems": [
    "C27_position_of_point",
    "C27_cell_of_point",
    "C27_strips_rejected",
    "C27_right_edge",
    "C27_double_position_of_point",
    "C27_double_cell_of_point",
    "C27_every_point_refuted"
   ],
   "note": "Exact: every point strictly inside; binary64: points at least 1/256 cell from the edges. Border defects: outer strips rejected, right edge column = NCOLS (refuted claim)."
  },
  {
   "property": "C28",
   "status": "proved",
   "theorems": [
    "C28_partition",
    "C28_full",
    "C28_again"
   ],
   "note": "Compact rasters, full grids (compacted first), all-NoData grids, second call."
  },
  {
   "property": "C29",
   "status": "proved",
   "theorems": [
    "C29_windows"
   ],
   "note": ""
  },
  {
   "property": "C30",
   "status": "proved",
   "theorems": [
    "C30_values",
    "C30_layers",
    "C30_one_layer_refuted",
    "C30_more_layers_refuted"
   ],
   "note": "Values convert losslessly to double and back (hypothesis ofD (toD v) = v). Refuted for layered data with one layer and for a second hand-over with more layers."
  },
  {
   "property": "C31",
   "status": "proved",
   "theorems": [
    "C31_never",
    "C31_refuted"
   ],
   "note": "False of the code as documented; proved to always fail when a usable subset exists."
  },
  {
   "property": "C32",
   "status": "proved",
   "theorems": [
    "C32_header",
    "C32_cells"
   ],
   "note": ""
  },
  {
   "property": "C33",
   "status": "proved",
   "theorems": [
    "C33_mask",
    "C33_exact",
    "C33_apart",
    "C33_layers_refuted",
    "C33_border_refuted"
   ],
   "note": ""
  },
  {
   "property": "C34",
   "status": "proved",
   "theorems": [
    "C34_trimmed",
    "C34_shifted",
    "C34_aligned",
    "C34_refuted"
   ],
   "note": ""
  },
  {
   "property": "C35",
   "status": "proved",
   "theorems": [
    "C35_hidden",
    "C35_covered",
    "C35_unmasked",
    "C35_refuted"
   ],
   "note": ""
  },
  {
   "property": "C36",
   "status": "proved",
   "theorems": [
    "C36_negative",
    "C36_refuted"
   ],
   "note": ""
  },
  {
   "property": "C37",
   "status": "proved",
   "theorems": [
    "C37_total"
   ],
   "note": ""
  },
  {
   "property": "C38",
   "status": "proved",
   "theorems": [
    "C38_fresh",
    "C38_onto",
    "C38_refuted"
   ],
   "note": "fresh and compatible targets proved; every single-layer raster copied onto a multi-layer object is unreadable (refuted part)"
  },
  {
   "property": "C39",
   "status": "proved",
   "theorems": [
    "C39_fresh",
    "C39_update",
    "C39_stale",
    "C39_array_never",
    "C39_refuted"
   ],
   "note": "stale answers proved for all histories of updates; the array variant never delivers"
  },
  {
   "property": "C40",
   "status": "proved",
   "theorems": [
    "C40_content",
    "C40_content_layers",
    "C40_whole",
    "C40_refuted",
    "C40_length"
   ],
   "note": "false: general refutation for every mask with a NoData cell; true for masks without"
  },
  {
   "property": "C41",
   "status": "proved",
   "theorems": [
    "C41_one_layer",
    "C41_layers",
    "C41_read_back",
    "C41_int",
    "C41_double"
   ],
   "note": ""
  },
  {
   "property": "C42",
   "status": "proved",
   "theorems": [
    "C42_refuted"
   ],
   "note": ""
  },
  {
   "property": "C43",
   "status": "proved",
   "theorems": [
    "C43_one_layer",
    "C43_layers",
    "C43_converted",
    "C43_emptied_refuted"
   ],
   "note": "proved for GDAL calls that succeed; the file is what is handed to GDAL"
  },
  {
   "property": "C44",
   "status": "proved",
   "theorems": [
    "C44_ints",
    "C44_cells"
   ],
   "note": ""
  },
  {
   "property": "C45",
   "status": "proved",
   "theorems": [
    "C45_fewer",
    "C45_more",
    "C45_spoiled",
    "C45_before_rows_refuted",
    "C45_before_header_refuted"
   ],
   "note": ""
  },
  {
   "property": "C46",
   "status": "proved",
   "theorems": [
    "C46_accepted",
    "C46_refused",
    "C46_unsigned_refuted",
    "C46_collision",
    "C46_same",
    "C46_bytes_refuted",
    "C46_floating",
    "C46_floating_refused",
    "C46_floating_refuted",
    "C46_nodata_refuted"
   ],
   "note": "proved with the exceptions listed in the statement (the _refuted theorems)"
  },
  {
   "property": "C47",
   "status": "proved",
   "theorems": [
    "C47_exact",
    "C47_close"
   ],
   "note": "exact and rounded case; uses the axioms of the reals"
  },
  {
   "property": "C48",
   "status": "proved",
   "theorems": [
    "C48_round_trip",
    "C48_same_values",
    "C48_accepts",
    "C48_zero_refuted",
    "C48_header_refuted"
   ],
   "note": "The MongoDB driver is a list of files; which of several matching files it finds and which of the four attempts to save succeeds are arbitrary."
  },
  {
   "property": "C49",
   "status": "proved",
   "theorems": [
    "C49_refuted",
    "C49_object_refuted",
    "C49_built_refuted"
   ],
   "note": "General refutation at the stream level: every call with such a type text hands a null buffer to the driver."
  },
  {
   "property": "C50",
   "status": "proved",
   "theorems": [
    "C50_int",
    "C50_double",
    "C50_text",
    "C50_missing",
    "C50_refuted"
   ],
   "note": ""
  },
  {
   "property": "C51",
   "status": "proved",
   "theorems": [
    "C51_date",
    "C51_since_epoch",
    "C51_near_epoch",
    "C51_late",
    "C51_refuted"
   ],
   "note": ""
  },
  {
   "property": "C52",
   "status": "proved",
   "theorems": [
    "C52_listed",
    "C52_total",
    "C52_only",
    "C52_refuted"
   ],
   "note": ""
  },
  {
   "property": "C53",
   "status": "proved",
   "theorems": [
    "C53_entries",
    "C53_skipped",
    "C53_bad_key",
    "C53_bad_value"
   ],
   "note": ""
  },
  {
   "property": "C54",
   "status": "proved",
   "theorems": [
    "C54_never_read",
    "C54_single_argument",
    "C54_last_argument",
    "C54_refuted"
   ],
   "note": ""
  },
  {
   "property": "C55",
   "status": "proved",
   "theorems": [
    "C55_safe",
    "C55_nothing_left",
    "C55_nodata_refuted",
    "C55_given_refuted",
    "C55_layers_refuted"
   ],
   "note": "Memory is a set of live arrays with their lengths; contents are not represented, what depends on them (numbers of valid cells) is quantified over. Proved for every program whose calls meet the stated conditions; C55_nodata_refuted, C55_layers_refuted and C55_given_refuted show that these conditions are needed."
  },
  {
   "property": "C56",
   "status": "proved",
   "theorems": [
    "C56_safe",
    "C56_copy_refuted",
    "C56_given_refuted",
    "C56_extent_refuted",
    "C56_values_refuted",
    "C56_read_refuted",
    "C56_order_refuted"
   ],
   "note": "C56_safe for every program whose calls meet the conditions of OwnSpec.careful; the refuted theorems show that breaking one leads to undefined behaviour."
  },
  {
   "property": "C57",
   "status": "proved",
   "theorems": [
    "C57_empty_is_number"
   ],
   "note": ""
  },
  {
   "property": "C58",
   "status": "proved",
   "theorems": [
    "C58_all_nodata_destroy",
    "C58_destroy_ok"
   ],
   "note": "undefined behaviour proved for every all-NoData full grid; safe otherwise"
  },
  {
   "property": "C59",
   "status": "proved",
   "theorems": [
    "C59_jagged"
   ],
   "note": "irregular arrays"
  },
  {
   "property": "C60",
   "status": "proved",
   "theorems": [
    "C60_ymd_roundtrip",
    "C60_date_info",
    "C60_julian_day",
    "C60_day_of_year",
    "C60_late_years_refuted"
   ],
   "note": "UTC branch; years >= 10000 refuted"
  },
  {
   "property": "C61",
   "status": "proved",
   "theorems": [
    "C61_date_text",
    "C61_time_text",
    "C61_compact_text",
    "C61_mismatch_refuted"
   ],
   "note": "UTC branch; mismatching text refuted"
  },
  {
   "property": "C62",
   "status": "proved",
   "theorems": [
    "C62_dst_hour",
    "C62_dst_text",
    "C62_first_of_january_refuted",
    "C62_first_of_february_refuted",
    "C62_first_of_march_refuted"
   ],
   "note": "month starts refuted"
  },
  {
   "property": "C63",
   "status": "proved",
   "theorems": [
    "C63_local_utc"
   ],
   "note": "fixed-offset zone"
  },
  {
   "property": "C64",
   "status": "proved",
   "theorems": [
    "C64_from_date_time",
    "C64_large_ms_refuted"
   ],
   "note": "fixed-offset zone; ms >= 1000 refuted"
  },
  {
   "property": "C65",
   "status": "proved",
   "theorems": [
    "C65_integers",
    "C65_grid",
    "C65_finite",
    "C65_nan_refuted",
    "C65_int64_refuted",
    "C65_transitive_refuted"
   ],
   "note": "binary64 via Flocq; classical reals axioms"
  },
  {
   "property": "C66",
   "status": "proved",
   "theorems": [
    "C66_listed",
    "C66_complete",
    "C66_no_suffix_refuted",
    "C66_part_suffix_refuted",
    "C66_unreadable_refuted"
   ],
   "note": "exact listing; over-listing refuted"
  },
  {
   "property": "C67",
   "status": "proved",
   "theorems": [
    "C67_clean",
    "C67_delete",
    "C67_delete_shallow",
    "C67_report_refuted"
   ],
   "note": "trees with permissions; reports refuted"
  },
  {
   "property": "C68",
   "status": "proved",
   "theorems": [
    "C68_integer_types",
    "C68_float_types",
    "C68_uint64_refuted",
    "C68_int64_refuted"
   ],
   "note": "binary64; UINT64 and INT64 refuted"
  },
  {
   "property": "C69",
   "status": "proved",
   "theorems": [
    "C69_table",
    "C69_unusable"
   ],
   "note": ""
  },
  {
   "property": "C70",
   "status": "proved",
   "theorems": [
    "C70_windows",
    "C70_one_layer_refuted"
   ],
   "note": "Refuted for one-layer layered rasters."
  },
  {
   "property": "C71",
   "status": "proved",
   "theorems": [
    "C71_roundtrip",
    "C71_flag",
    "C71_refuted"
   ],
   "note": ""
  },
  {
   "property": "C72",
   "status": "proved",
   "theorems": [
    "C72_options",
    "C72_no_file",
    "C72_bad_file"
   ],
   "note": ""
  },
  {
   "property": "C73",
   "status": "proved",
   "theorems": [
    "C73_existing",
    "C73_word",
    "C73_single",
    "C73_refuted"
   ],
   "note": ""
  },
  {
   "property": "C74",
   "status": "proved",
   "theorems": [
    "C74_throws",
    "C74_no_statistics",
    "C74_all_nodata",
    "C74_self"
   ],
   "note": "false: each failure is proved for all objects in the given states"
  },
  {
   "property": "C75",
   "status": "proved",
   "theorems": [
    "C75_number",
    "C75_unique",
    "C75_integer",
    "C75_junk",
    "C75_empty_refuted"
   ],
   "note": ""
  },
  {
   "property": "C76",
   "status": "proved",
   "theorems": [
    "C76_header",
    "C76_complete",
    "C76_short"
   ],
   "note": ""
  },
  {
   "property": "C77",
   "status": "proved",
   "theorems": [
    "C77_reread",
    "C77_survives",
    "C77_stable",
    "C77_integers"
   ],
   "note": ""
  },
  {
   "property": "C78",
   "status": "proved",
   "theorems": [
    "C78_int_refuted",
    "C78_cells_refuted",
    "C78_uint_refuted",
    "C78_read_refuted"
   ],
   "note": ""
  },
  {
   "property": "C79",
   "status": "proved",
   "theorems": [
    "C79_digits_refuted",
    "C79_letters_refuted"
   ],
   "note": ""
  },
  {
   "property": "C80",
   "status": "proved",
   "theorems": [
    "C80_refuted"
   ],
   "note": ""
  },
  {
   "property": "C81",
   "status": "proved",
   "theorems": [
    "C81_read",
    "C81_round_trip",
    "C81_signed_bytes",
    "C81_object",
    "C81_bytes_refuted",
    "C81_type_refuted"
   ],
   "note": "GDAL itself is not modelled: a file gives back what was stored; ComputeRasterMinMax by its specification"
  },
  {
   "property": "C82",
   "status": "proved",
   "theorems": [
    "C82_replaced",
    "C82_other_option_refuted"
   ],
   "note": "Replacement proved for options that name the stored type; the case of a changed option is a general refutation with a driver that finds the oldest file."
  },
  {
   "property": "C83",
   "status": "proved",
   "theorems": [
    "C83_round_trip",
    "C83_whole_grid"
   ],
   "note": "C83_round_trip: output with NoData and reading without mask, any shape, type and options; position and size compared exactly. The bucket is a list of files, whether a save succeeds is an argument."
  },
  {
   "property": "C84",
   "status": "proved",
   "theorems": [
    "C84_needs_mask",
    "C84_by_rank",
    "C84_round_trip"
   ],
   "note": "C84_needs_mask (general impossibility), C84_by_rank and C84_round_trip; an all-NoData raster gives a file whose reading is undefined (C84_nothing)."
  },
  {
   "property": "C85",
   "status": "proved",
   "theorems": [
    "C85_deep",
    "C85_shallow_refuted",
    "C85_shallow_empty"
   ],
   "note": "Deep copies proved safe; the default copy refuted for subsets with values."
  },
  {
   "property": "C86",
   "status": "proved",
   "theorems": [
    "C86_values_refuted"
   ],
   "note": "Claim is false; a family of histories leaks."
  },
  {
   "property": "C87",
   "status": "proved",
   "theorems": [
    "C87_text_refuted"
   ],
   "note": "Claim is false; in every state."
  },
  {
   "property": "C88",
   "status": "proved",
   "theorems": [
    "C88_tables_are_values",
    "C88_two_blocks_each"
   ],
   "note": "Refinement of the pointer program to tables as values, and an ownership invariant of blocks."
  },
  {
   "property": "C89",
   "status": "proved",
   "theorems": [
    "C89_copy_of_empty_refuted",
    "C89_too_large_refuted",
    "C89_no_memory_refuted"
   ],
   "note": "The statement that these calls are defined is false; refuted for every such program."
  },
  {
   "property": "C90",
   "status": "proved",
   "theorems": [
    "C90_subsets_round_trip"
   ],
   "note": "For reading back any file written, subset by subset; separate files; the values are compared after conversion to the stored type."
  },
  {
   "property": "C91",
   "status": "proved",
   "theorems": [
    "C91_true_without_files_refuted",
    "C91_original_refuted",
    "C91_no_values_refuted"
   ],
   "note": "Claim is false; refuted for every raster and bucket."
  },
  {
   "property": "C92",
   "status": "proved",
   "theorems": [
    "C92_combined_round_trip"
   ],
   "note": "Read back as an array of the stored type."
  },
  {
   "property": "C93",
   "status": "proved",
   "theorems": [
    "C93_layers",
    "C93_same_grid"
   ],
   "note": "Cells between the safe zones of two grids (within 1/256 of a cell of an edge) are not claimed. No mask, fresh object; reading one file is a parameter (C43-C47 treat the readers)."
  },
  {
   "property": "C94",
   "status": "proved",
   "theorems": [
    "C94_half_strip_refuted"
   ],
   "note": "The claim is false; proved for every such cell."
  },
  {
   "property": "C95",
   "status": "proved",
   "theorems": [
    "C95_readers_keep",
    "C95_unreadable_refuted"
   ],
   "note": "The claim is false; proved for every position of the unreadable file."
  },
  {
   "property": "C96",
   "status": "proved",
   "theorems": [
    "C96_float_nodata_refuted"
   ],
   "note": "The claim is false; proved for every such value."
  },
  {
   "property": "C97",
   "status": "proved",
   "theorems": [
    "C97_border_refuted"
   ],
   "note": "The claim is false; proved for a family of grids."
  },
  {
   "property": "C98",
   "status": "proved",
   "theorems": [
    "C98_template",
    "C98_underscore_refuted"
   ],
   "note": "The second sentence is a finding (C98_underscore_refuted)."
  },
  {
   "property": "C99",
   "status": "proved",
   "theorems": [
    "C99_double",
    "C99_float"
   ],
   "note": "Finite results and a relative bound for all positive normal numbers; the real square root of Coq's standard library is the reference."
  },
  {
   "property": "C100",
   "status": "proved",
   "theorems": [
    "C100_zero",
    "C100_infinity_refuted",
    "C100_negative_refuted",
    "C100_subnormal_refuted"
   ],
   "note": "Zeros proved for both types; the other expectations are refuted by instances."
  },
  {
   "property": "C101",
   "status": "proved",
   "theorems": [
    "C101_double",
    "C101_float",
    "C101_one_refuted"
   ],
   "note": "The absolute bound is proved for all positive normal numbers; that ln 1 is 0 is refuted."
  },
  {
   "property": "C102",
   "status": "proved",
   "theorems": [
    "C102_negative_refuted",
    "C102_negative_float_refuted",
    "C102_finite_refuted"
   ],
   "note": "The expectation is false; refuted for every number and its opposite, and for zero and infinity."
  },
  {
   "property": "C103",
   "status": "proved",
   "theorems": [
    "C103_double",
    "C103_float"
   ],
   "note": "Proved for all finite arguments of magnitude up to 43.66."
  },
  {
   "property": "C104",
   "status": "proved",
   "theorems": [
    "C104_negative_refuted",
    "C104_negative_float_refuted",
    "C104_undefined_refuted",
    "C104_undefined_float_refuted"
   ],
   "note": "The expectation is false; refuted for every argument in the stated ranges."
  },
  {
   "property": "C105",
   "status": "proved",
   "theorems": [
    "C105_power",
    "C105_relative",
    "C105_one_refuted"
   ],
   "note": "Proved for all pairs in range; exactness at exponent 0 is refuted."
  },
  {
   "property": "C106",
   "status": "proved",
   "theorems": [
    "C106_undefined_refuted",
    "C106_wraps_refuted"
   ],
   "note": "The expectation is false; refuted for every pair in the stated ranges."
  },
  {
   "property": "C107",
   "status": "proved",
   "theorems": [
    "C107_sign_refuted",
    "C107_odd_refuted",
    "C107_zero_refuted"
   ],
   "note": "The expectation is false; refuted for all bases and the stated exponents."
  },
  {
   "property": "C108",
   "status": "proved",
   "theorems": [
    "C108_clamped",
    "C108_infinite",
    "C108_nan"
   ],
   "note": "exp is an arbitrary function."
  },
  {
   "property": "C109",
   "status": "proved",
   "theorems": [
    "C109_positive",
    "C109_odd",
    "C109_even_refuted"
   ],
   "note": "Oddness proved; the usual sign of even powers is refuted for every negative base; pow is an arbitrary function positive on positive bases."
  },
  {
   "property": "C110",
   "status": "proved",
   "theorems": [
    "C110_start",
    "C110_data_sets"
   ],
   "note": "Through prepare, which fills the vectors; which items are left out is exact in C113 and C117."
  },
  {
   "property": "C111",
   "status": "proved",
   "theorems": [
    "C111_shift_refuted"
   ],
   "note": "False of the code; general family. The example runs the whole tool."
  },
  {
   "property": "C112",
   "status": "proved",
   "theorems": [
    "C112_no_effect_refuted",
    "C112_type_refuted"
   ],
   "note": "False of the code; stated for pairs of option sets."
  },
  {
   "property": "C113",
   "status": "proved",
   "theorems": [
    "C113_calls"
   ],
   "note": "Exact trace of library calls; the library's answers are arguments of the model."
  },
  {
   "property": "C114",
   "status": "proved",
   "theorems": [
    "C114_calls_refuted",
    "C114_nothing_refuted"
   ],
   "note": "False of the code. Calls of the tool and the effect of that call are separate theorems; the link OutputToFile(path, false) = OutputSubsetToFile(false, true, path) is data_raster.hpp:2855, and that a masked raster copies the mask's subsets with null data (3966-3978) is read from the code, not modelled."
  },
  {
   "property": "C115",
   "status": "proved",
   "theorems": [
    "C115_calls",
    "C115_no_mask"
   ],
   "note": "Exact trace of library calls. Items with a readable table are excluded from the trace."
  },
  {
   "property": "C116",
   "status": "proved",
   "theorems": [
    "C116_mask_refuted",
    "C116_input_refuted",
    "C116_unreadable_refuted"
   ],
   "note": "False of the code; three theorems."
  },
  {
   "property": "C117",
   "status": "proved",
   "theorems": [
    "C117_gridfs_refuted",
    "C117_files_refuted"
   ],
   "note": "False of the code; one theorem for either kind of first item."
  },
  {
   "property": "C118",
   "status": "proved",
   "theorems": [
    "C118_1d",
    "C118_2d"
   ],
   "note": "Model takes the arguments as the list of pointers passed; va_start on a reference parameter is undefined by the standard and taken as compilers do it."
  },
  {
   "property": "C119",
   "status": "proved",
   "theorems": [
    "C119_null_refuted",
    "C119_leak_refuted",
    "C119_open_refuted"
   ],
   "note": "False of the code; families proved."
  },
  {
   "property": "C120",
   "status": "proved",
   "theorems": [
    "C120_1d",
    "C120_2d",
    "C120_int"
   ],
   "note": "Element reader is any function that meets reads; int is proved to be one (C120_int)."
  },
  {
   "property": "C121",
   "status": "proved",
   "theorems": [
    "C121_1d_refuted",
    "C121_2d_refuted"
   ],
   "note": "False of the code; holds for every element type whose reader reads whole numbers and stops at the end (int shown in C121_ex). The text is the one written with %g precision 6."
  },
  {
   "property": "C122",
   "status": "proved",
   "theorems": [
    "C122_missing_refuted",
    "C122_short_refuted",
    "C122_rows_refuted",
    "C122_counts_refuted"
   ],
   "note": "False of the code; exact outcomes proved for each kind of malformed text."
  },
  {
   "property": "C123",
   "status": "proved",
   "theorems": [
    "C123_built",
    "C123_kept",
    "C123_own"
   ],
   "note": "Conditions met by built subsets: C123_built. Coordinates exact."
  },
  {
   "property": "C124",
   "status": "proved",
   "theorems": [
    "C124_stale_refuted"
   ],
   "note": "False in the code; refuted for all such masks. Kept subsets characterised."
  },
  {
   "property": "C125",
   "status": "proved",
   "theorems": [
    "C125_rebuilt"
   ],
   "note": "True, with and without positions."
  },
  {
   "property": "C126",
   "status": "proved",
   "theorems": [
    "C126_windows_refuted",
    "C126_indices_refuted"
   ],
   "note": "False in the code; refuted for all such masks, windows and indices."
  },
  {
   "property": "C127",
   "status": "proved",
   "theorems": [
    "C127_layers_refuted"
   ],
   "note": "False in the code; refuted for all such subsets, for total conversions."
  },
  {
   "property": "C128",
   "status": "proved",
   "theorems": [
    "C128_text",
    "C128_same",
    "C128_whole",
    "C128_infinite"
   ],
   "note": "strengthened by C128_same (texts as an invariant) and C128_infinite"
  },
  {
   "property": "C129",
   "status": "proved",
   "theorems": [
    "C129_close",
    "C129_exact",
    "C129_large",
    "C129_tiny_refuted"
   ],
   "note": "C129_exact is an equivalence; the literal claim (always the number itself) is refuted by C129_tiny_refuted"
  },
  {
   "property": "C130",
   "status": "proved",
   "theorems": [
    "C130_narrow",
    "C130_ascii",
    "C130_wide_refuted",
    "C130_bytes_refuted",
    "C130_nul_refuted",
    "C130_ftow",
    "C130_IsInt",
    "C130_IsInt64",
    "C130_IsUInt",
    "C130_IsDouble",
    "C130_IsDouble_other"
   ],
   "note": "the literal claim for other texts is refuted by C130_wide_refuted and C130_bytes_refuted"
  },
  {
   "property": "C131",
   "status": "proved",
   "theorems": [
    "C131_safe",
    "C131_clean"
   ],
   "note": "Under the contract of the MongoDB driver stated at the head of HandleModel.v; what the driver answers is an argument of every call."
  },
  {
   "property": "C132",
   "status": "proved",
   "theorems": [
    "C132_tool",
    "C132_unreachable",
    "C132_no_bucket"
   ],
   "note": "Rasters are read and written one file at a time; the buffer with converted data in WriteStreamDataAsGridfs is left out."
  },
  {
   "property": "C133",
   "status": "proved",
   "theorems": [
    "C133_lost_refuted"
   ],
   "note": "Refuted: for every careful program with one of the leaking calls."
  },
  {
   "property": "C134",
   "status": "proved",
   "theorems": [
    "C134_rules",
    "C134_copy",
    "C134_shut_refuted"
   ],
   "note": "C134_shut_refuted is the general family for clients that outlive the destruction of one."
  },
  {
   "property": "C135",
   "status": "proved",
   "theorems": [
    "C135_names",
    "C135_write",
    "C135_fullsize",
    "C135_layers",
    "C135_bare_refused",
    "C135_no_suffix_refused",
    "C135_replaced_refuted"
   ],
   "note": "names: C135_names, C135_write, C135_fullsize; values of each layer: C135_layers; refused names: C135_bare_refused, C135_no_suffix_refused; the expectation for other suffixes is refuted by C135_replaced_refuted"
  },
  {
   "property": "C136",
   "status": "proved",
   "theorems": [
    "C136_tif_back",
    "C136_lost_refuted"
   ],
   "note": "C136_tif_back; the expectation for further layers is refuted by C136_lost_refuted"
  },
  {
   "property": "C137",
   "status": "proved",
   "theorems": [
    "C137_asc_back",
    "C137_dropped_refuted",
    "C137_bytes_refuted"
   ],
   "note": "C137_asc_back; refuted for dropped cells of several layers (C137_dropped_refuted) and for bytes (C137_bytes_refuted)"
  },
  {
   "property": "C138",
   "status": "proved",
   "theorems": [
    "C138_absolute",
    "C138_exist",
    "C138_make",
    "C138_new",
    "C138_one_level",
    "C138_dangling_refuted"
   ],
   "note": "C138_absolute, C138_exist; C138_make (all outcomes), C138_new, C138_one_level; the expectation is refuted for links to nothing by C138_dangling_refuted"
  },
  {
   "property": "C139",
   "status": "proved",
   "theorems": [
    "C139_deleted",
    "C139_when",
    "C139_link_refuted",
    "C139_dangling_refuted",
    "C139_directory_refuted"
   ],
   "note": "C139_deleted (all outcomes), C139_when; refuted for links (C139_link_refuted, C139_dangling_refuted) and empty directories (C139_directory_refuted)"
  },
  {
   "property": "C140",
   "status": "proved",
   "theorems": [
    "C140_replaced",
    "C140_kept_refuted",
    "C140_unreadable_refuted",
    "C140_new_dir"
   ],
   "note": "C140_replaced, C140_new_dir; refuted for files that may be written but not removed by C140_kept_refuted, with what the reader makes of it in C140_unreadable_refuted"
  },
  {
   "property": "C141",
   "status": "proved",
   "theorems": [
    "C141_beside",
    "C141_unknown_refuted"
   ],
   "note": "C141_beside; refuted by C141_unknown_refuted when the operating system does not tell or the name is too long"
  },
  {
   "property": "C142",
   "status": "proved",
   "theorems": [
    "C142_outside",
    "C142_ends",
    "C142_gone",
    "C142_shallow",
    "C142_link_refuted",
    "C142_unlisted_refuted"
   ],
   "note": "C142_outside, C142_ends, C142_gone, C142_shallow; the expectation is refuted for links (C142_link_refuted) and for directories that may not be listed (C142_unlisted_refuted)"
  },
  {
   "property": "C143",
   "status": "proved",
   "theorems": [
    "C143_outside",
    "C143_left",
    "C143_missing"
   ],
   "note": "C143_outside, C143_left, C143_missing"
  },
  {
   "property": "C144",
   "status": "proved",
   "theorems": [
    "C144_listed",
    "C144_suffix",
    "C144_cwd_refuted"
   ],
   "note": "C144_listed, C144_suffix; the expectation is refuted by C144_cwd_refuted"
  },
  {
   "property": "C145",
   "status": "proved",
   "theorems": [
    "C145_item",
    "C145_round_trip",
    "C145_lost_refuted",
    "C145_empty_refuted",
    "C145_names"
   ],
   "note": "Files by their name's number and what reading them gives; reading is C46 and C137. Mode COMBINE with files only, not with the data base."
  },
  {
   "property": "C146",
   "status": "proved",
   "theorems": [
    "C146_file",
    "C146_new",
    "C146_elsewhere",
    "C146_stamp",
    "C146_recover",
    "C146_forged_refuted"
   ],
   "note": "One process; asctime_r as glibc has it; writes do not fail."
  },
  {
   "property": "C147",
   "status": "proved",
   "theorems": [
    "C147_what",
    "C147_parts",
    "C147_ambiguous_refuted",
    "C147_nul_refuted"
   ],
   "note": "The text only."
  },
  {
   "property": "C148",
   "status": "proved",
   "theorems": [
    "C148_last",
    "C148_team",
    "C148_kept_refuted",
    "C148_zero_refuted"
   ],
   "note": "With SUPPORT_OMP; without it the calls do nothing."
  },
  {
   "property": "C149",
   "status": "proved",
   "theorems": [
    "C149_init",
    "C149_copy",
    "C149_copy2",
    "C149_sum",
    "C149_sum_idx",
    "C149_std",
    "C149_std_layer",
    "C149_convert",
    "C149_first_layer",
    "C149_layer_pos",
    "C149_layer_row",
    "C149_db",
    "C149_db_layers",
    "C149_compact",
    "C149_compact_seq",
    "C149_replace",
    "C149_reduction",
    "C149_teams",
    "C149_sum_team",
    "C149_layer_pos_seq",
    "C149_layer_row_seq",
    "C149_convert_seq",
    "C149_db_seq",
    "C149_db_layers_seq",
    "C149_std_team"
   ],
   "note": "Single reads and writes of array elements interleaved in any order (without data races this is all C++ allows); the bodies of all 25 parallel loops. The tests and conversions of values are arbitrary functions. C149_replace ties the loop to the sequential model of C24; the other loops have the values of their sequential models but no theorem naming these."
  },
  {
   "property": "C150",
   "status": "proved",
   "theorems": [
    "C150_share",
    "C150_cell_refuted",
    "C150_stats",
    "C150_stats_refuted",
    "C150_stats_first",
    "C150_memory"
   ],
   "note": "Fields, position indices and cells as single accesses; messages (StatusMessage) left out, a pointer and its null test are one access. Rasters all of whose cells were dropped are excluded (C58). Statistics: one layer only; the loops of BasicStatistics read the cells once."
  },
  {
   "property": "C151",
   "status": "proved",
   "theorems": [
    "C151_all",
    "C151_round_trip",
    "C151_masked",
    "C151_columns_refuted"
   ],
   "note": "Which of several files the driver finds, and the masking of a file with another number of cells (masked), are arguments."
  },
  {
   "property": "C152",
   "status": "proved",
   "theorems": [
    "C152_share",
    "C152_first",
    "C152_first_refuted"
   ],
   "note": "Masks of one layer; the arrays of the mask keep their places in memory."
  },
  {
   "property": "C153",
   "status": "proved",
   "theorems": [
    "C153_option",
    "C153_string",
    "C153_pointer_refuted"
   ],
   "note": "A string is a block of memory of its own (no short strings within the object); it is gone all the same when the temporary ends."
  },
  {
   "property": "C154",
   "status": "proved",
   "theorems": [
    "C154_same_size",
    "C154_nodata_refuted",
    "C154_size_refuted",
    "C154_layers_refuted"
   ],
   "note": "Rows, columns and coordinates are read from the header once instead of at each use."
  },
  {
   "property": "C155",
   "status": "proved",
   "theorems": [
    "C155_integers",
    "C155_values",
    "C155_same",
    "C155_llong_refuted"
   ],
   "note": "The claim is false for long long and unsigned long long; C155_llong_refuted says how."
  },
  {
   "property": "C156",
   "status": "proved",
   "theorems": [
    "C156_arrays",
    "C156_length"
   ],
   "note": "Pointers are modelled as the lists they lead to; lifetimes are those of C55 and C56."
  }
 ]
}