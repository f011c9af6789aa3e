{
 "claims": [
  {
   "property": "C01",
   "status": "proved",
   "theorems": [
    "c01_date_round_trip"
   ],
   "note": "Every valid date in the accepted range, both date modes, through the IEEE double serial."
  },
  {
   "property": "C02",
   "status": "proved",
   "theorems": [
    "c02_serials_enumerate_calendar"
   ],
   "note": ""
  },
  {
   "property": "C03",
   "status": "proved",
   "theorems": [
    "c03_outcome",
    "c03_too_large_is_year_10000",
    "c03_nonfinite"
   ],
   "note": ""
  },
  {
   "property": "C04",
   "status": "proved",
   "theorems": [
    "c04_documented_ranges_refuted",
    "c04_documented_ranges_corrected"
   ],
   "note": "The documented ranges are false as written (refuted with witnesses); the corrected ranges are proved for all inputs."
  },
  {
   "property": "C05",
   "status": "proved",
   "theorems": [
    "c05_time_round_trip"
   ],
   "note": ""
  },
  {
   "property": "C06",
   "status": "proved",
   "theorems": [
    "c06_datetime_round_trip"
   ],
   "note": ""
  },
  {
   "property": "C07",
   "status": "proved",
   "theorems": [
    "c07_acceptance"
   ],
   "note": ""
  },
  {
   "property": "C08",
   "status": "proved",
   "theorems": [
    "c08_serials_ordered",
    "c08_as_tuple_monotone",
    "c08_datetimes_ordered"
   ],
   "note": ""
  },
  {
   "property": "C09",
   "status": "proved",
   "theorems": [
    "c09_as_datetime_whole_days"
   ],
   "note": ""
  },
  {
   "property": "C10",
   "status": "proved",
   "theorems": [
    "c10_colname_numeral",
    "c10_colname_onto",
    "c10_colname_order"
   ],
   "note": ""
  },
  {
   "property": "C11",
   "status": "proved",
   "theorems": [
    "c11_colnames_agree"
   ],
   "note": ""
  },
  {
   "property": "C12",
   "status": "proved",
   "theorems": [
    "c12_cellname_recover",
    "c12_cellname_injective",
    "c12_cellnameabs_injective",
    "c12_cellnameabs_recover",
    "c12_rangename"
   ],
   "note": ""
  },
  {
   "property": "C13",
   "status": "proved",
   "theorems": [
    "c13_unicode_update_pos",
    "c13_unicode_known_len",
    "c13_unicode_empty_no_options",
    "c13_unpack_unicode"
   ],
   "note": ""
  },
  {
   "property": "C14",
   "status": "proved",
   "theorems": [
    "c14_integer",
    "c14_hundredths",
    "c14_double",
    "c14_double_hundredths",
    "c14_every_value"
   ],
   "note": ""
  },
  {
   "property": "C15",
   "status": "proved",
   "theorems": [
    "c15_round_trip",
    "c15_progress",
    "c15_ends",
    "c15_conditional"
   ],
   "note": ""
  },
  {
   "property": "C16",
   "status": "proved",
   "theorems": [
    "c16_sst_split_transparent"
   ],
   "note": ""
  },
  {
   "property": "C17",
   "status": "proved",
   "theorems": [
    "c17_split_pair_fails",
    "c17_transparent_for_units_refuted"
   ],
   "note": ""
  },
  {
   "property": "C18",
   "status": "proved",
   "theorems": [
    "c18_count",
    "c18_ends"
   ],
   "note": ""
  },
  {
   "property": "C19",
   "status": "proved",
   "theorems": [
    "c19_last_store"
   ],
   "note": ""
  },
  {
   "property": "C20",
   "status": "proved",
   "theorems": [
    "c20_dimensions"
   ],
   "note": ""
  },
  {
   "property": "C21",
   "status": "proved",
   "theorems": [
    "c21_ragged_is_cut"
   ],
   "note": ""
  },
  {
   "property": "C22",
   "status": "proved",
   "theorems": [
    "c22_rows",
    "c22_columns"
   ],
   "note": ""
  },
  {
   "property": "C23",
   "status": "proved",
   "theorems": [
    "c23_blank_no_effect",
    "c23_content",
    "c23_anywhere_refuted"
   ],
   "note": ""
  },
  {
   "property": "C24",
   "status": "proved",
   "theorems": [
    "c24_type",
    "c24_unknown"
   ],
   "note": ""
  },
  {
   "property": "C25",
   "status": "proved",
   "theorems": [
    "c25_fallback",
    "c25_content"
   ],
   "note": ""
  },
  {
   "property": "C26",
   "status": "proved",
   "theorems": [
    "c26_merged"
   ],
   "note": ""
  },
  {
   "property": "C27",
   "status": "proved",
   "theorems": [
    "c27_mulrk",
    "c27_mulblank"
   ],
   "note": ""
  },
  {
   "property": "C28",
   "status": "proved",
   "theorems": [
    "c28_kinds",
    "c28_text",
    "c28_text_refuted"
   ],
   "note": ""
  },
  {
   "property": "C29",
   "status": "proved",
   "theorems": [
    "c29_content",
    "c29_round_trip",
    "c29_cell",
    "c29_no_others",
    "c29_double"
   ],
   "note": ""
  },
  {
   "property": "C30",
   "status": "proved",
   "theorems": [
    "c30_links",
    "c30_quicktip"
   ],
   "note": ""
  },
  {
   "property": "C31",
   "status": "proved",
   "theorems": [
    "c31_second_dimension_refuted",
    "c31_dimension_first"
   ],
   "note": ""
  },
  {
   "property": "C32",
   "status": "proved",
   "theorems": [
    "c32_width"
   ],
   "note": ""
  },
  {
   "property": "C33",
   "status": "proved",
   "theorems": [
    "c33_zoom_range",
    "c33_zoom"
   ],
   "note": ""
  },
  {
   "property": "C34",
   "status": "proved",
   "theorems": [
    "c34_text",
    "c34_notes",
    "c34_old_note"
   ],
   "note": ""
  },
  {
   "property": "C35",
   "status": "proved",
   "theorems": [
    "c35_located",
    "c35_found",
    "c35_entry_limit"
   ],
   "note": ""
  },
  {
   "property": "C36",
   "status": "proved",
   "theorems": [
    "c36_agree",
    "c36_cut_file_refuted"
   ],
   "note": ""
  },
  {
   "property": "C37",
   "status": "proved",
   "theorems": [
    "c37_chain",
    "c37_open",
    "c37_locate",
    "c37_fuel"
   ],
   "note": ""
  },
  {
   "property": "C38",
   "status": "proved",
   "theorems": [
    "c38_cyclic_never_ends",
    "c38_ends_iff",
    "c38_file"
   ],
   "note": ""
  },
  {
   "property": "C39",
   "status": "proved",
   "theorems": [
    "c39_sectors_disjoint",
    "c39_shared_sector_refused"
   ],
   "note": ""
  },
  {
   "property": "C40",
   "status": "proved",
   "theorems": [
    "c40_components",
    "c40_search",
    "c40_rest_ignored"
   ],
   "note": ""
  },
  {
   "property": "C41",
   "status": "proved",
   "theorems": [
    "c41_tree",
    "c41_opened",
    "c41_cycle"
   ],
   "note": ""
  },
  {
   "property": "C42",
   "status": "proved",
   "theorems": [
    "c42_same_content",
    "c42_stays",
    "c42_released",
    "c42_any_order",
    "c42_load_refuted",
    "c42_number_refuted"
   ],
   "note": ""
  },
  {
   "property": "C43",
   "status": "proved",
   "theorems": [
    "c43_listed",
    "c43_by_index",
    "c43_by_name"
   ],
   "note": ""
  },
  {
   "property": "C44",
   "status": "proved",
   "theorems": [
    "c44_names",
    "c44_scopes",
    "c44_name_map",
    "c44_globals_before_sheets",
    "c44_scope_map",
    "c44_globals_first_refuted"
   ],
   "note": ""
  },
  {
   "property": "C45",
   "status": "proved",
   "theorems": [
    "c45_area2d",
    "c45_workbook"
   ],
   "note": ""
  },
  {
   "property": "C46",
   "status": "proved",
   "theorems": [
    "c46_area2d",
    "c46_cell",
    "c46_not_cell",
    "c46_documented_error_refuted"
   ],
   "note": ""
  },
  {
   "property": "C47",
   "status": "proved",
   "theorems": [
    "c47_getbof",
    "c47_one_version",
    "c47_only_xlrderror"
   ],
   "note": ""
  },
  {
   "property": "C48",
   "status": "proved",
   "theorems": [
    "c48_one_encoding",
    "c48_encoding",
    "c48_settles",
    "c48_repeat_refuted",
    "c48_unusable"
   ],
   "note": ""
  },
  {
   "property": "C49",
   "status": "proved",
   "theorems": [
    "c49_inspect",
    "c49_refused",
    "c49_let_through",
    "c49_only_xls",
    "c49_variants",
    "c49_tilde_refuted"
   ],
   "note": ""
  },
  {
   "property": "C50",
   "status": "proved",
   "theorems": [
    "c50_filepass",
    "c50_filepass_first"
   ],
   "note": ""
  },
  {
   "property": "C51",
   "status": "proved",
   "theorems": [
    "c51_resolves",
    "c51_resolves_b57",
    "c51_valid",
    "c51_split"
   ],
   "note": ""
  },
  {
   "property": "C52",
   "status": "proved",
   "theorems": [
    "c52_biff8",
    "c52_biff5",
    "c52_biff4",
    "c52_biff3",
    "c52_biff2"
   ],
   "note": ""
  },
  {
   "property": "C53",
   "status": "proved",
   "theorems": [
    "c53_every_string",
    "c53_answer",
    "c53_same",
    "c53_insert",
    "c53_dates",
    "c53_numbers"
   ],
   "note": ""
  },
  {
   "property": "C54",
   "status": "proved",
   "theorems": [
    "c54_format_list",
    "c54_format_map",
    "c54_standard",
    "c54_documented",
    "c54_consistent"
   ],
   "note": ""
  },
  {
   "property": "C55",
   "status": "proved",
   "theorems": [
    "c55_nearest",
    "c55_index",
    "c55_book"
   ],
   "note": ""
  },
  {
   "property": "C56",
   "status": "proved",
   "theorems": [
    "c56_palette",
    "c56_size",
    "c56_no_formatting",
    "c56_initial",
    "c56_standard",
    "c56_book",
    "c56_workbook",
    "c56_second"
   ],
   "note": ""
  },
  {
   "property": "C57",
   "status": "proved",
   "theorems": [
    "c57_xfs",
    "c57_record",
    "c57_types"
   ],
   "note": ""
  },
  {
   "property": "C58",
   "status": "proved",
   "theorems": [
    "c58_fonts",
    "c58_dummy",
    "c58_no_formatting",
    "c58_efont"
   ],
   "note": ""
  },
  {
   "property": "C59",
   "status": "proved",
   "theorems": [
    "c59_text"
   ],
   "note": ""
  },
  {
   "property": "C60",
   "status": "proved",
   "theorems": [
    "c60_determines",
    "c60_ambiguous",
    "c60_unique_text_refuted",
    "c60_error_text_refuted"
   ],
   "note": ""
  },
  {
   "property": "C61",
   "status": "proved",
   "theorems": [
    "c61_positive",
    "c61_positive_evaluated",
    "c61_zero",
    "c61_no_arguments_refuted",
    "c61_no_arguments_evaluated_refuted"
   ],
   "note": ""
  },
  {
   "property": "C62",
   "status": "proved",
   "theorems": [
    "c62_decompile_ends",
    "c62_evaluate_ends",
    "c62_cycle",
    "c62_depth"
   ],
   "note": ""
  },
  {
   "property": "C63",
   "status": "proved",
   "theorems": [
    "c63_offset_biff8",
    "c63_address_biff8",
    "c63_offset_biff7_refuted",
    "c63_offset_biff7_inside",
    "c63_address_biff7",
    "c63_cell",
    "c63_area",
    "c63_area_biff7"
   ],
   "note": ""
  },
  {
   "property": "C64",
   "status": "proved",
   "theorems": [
    "c64_formula",
    "c64_empty_operand_refuted",
    "c64_workbook"
   ],
   "note": ""
  },
  {
   "property": "C65",
   "status": "proved",
   "theorems": [
    "c65_value",
    "c65_known",
    "c65_boolean_refuted",
    "c65_sign_refuted",
    "c65_workbook"
   ],
   "note": ""
  },
  {
   "property": "C66",
   "status": "proved",
   "theorems": [
    "c66_recover",
    "c66_injective",
    "c66_total"
   ],
   "note": ""
  },
  {
   "property": "C67",
   "status": "proved",
   "theorems": [
    "c67_reading_ends",
    "c67_old_reading_ends"
   ],
   "note": ""
  },
  {
   "property": "C68",
   "status": "proved",
   "theorems": [
    "c68_hlink",
    "c68_astral_url_refuted"
   ],
   "note": ""
  },
  {
   "property": "C69",
   "status": "proved",
   "theorems": [
    "c69_globals_end",
    "c69_open_ends",
    "c69_open_refuted",
    "c69_all_versions_end",
    "c69_plain_files_end"
   ],
   "note": ""
  },
  {
   "property": "C70",
   "status": "proved",
   "theorems": [
    "c70_user_name_order",
    "c70_early_derivation_refuted"
   ],
   "note": ""
  },
  {
   "property": "C71",
   "status": "proved",
   "theorems": [
    "c71_content",
    "c71_open",
    "c71_cell",
    "c71_no_others"
   ],
   "note": ""
  },
  {
   "property": "C72",
   "status": "proved",
   "theorems": [
    "c72_described",
    "c72_shared",
    "c72_parent_refuted"
   ],
   "note": ""
  },
  {
   "property": "C73",
   "status": "proved",
   "theorems": [
    "c73_ixfe",
    "c73_missing"
   ],
   "note": ""
  },
  {
   "property": "C74",
   "status": "proved",
   "theorems": [
    "c74_version"
   ],
   "note": ""
  },
  {
   "property": "C75",
   "status": "proved",
   "theorems": [
    "c75_cells"
   ],
   "note": ""
  },
  {
   "property": "C76",
   "status": "proved",
   "theorems": [
    "c76_round_trip",
    "c76_other_ways"
   ],
   "note": ""
  },
  {
   "property": "C77",
   "status": "proved",
   "theorems": [
    "c77_round_trip",
    "c77_other_ways",
    "c77_no_workbook"
   ],
   "note": ""
  },
  {
   "property": "C78",
   "status": "proved",
   "theorems": [
    "c78_cells",
    "c78_columns",
    "c78_negative",
    "c78_negative_refuted"
   ],
   "note": ""
  },
  {
   "property": "C79",
   "status": "proved",
   "theorems": [
    "c79_dump"
   ],
   "note": ""
  },
  {
   "property": "C80",
   "status": "proved",
   "theorems": [
    "c80_counts"
   ],
   "note": ""
  },
  {
   "property": "C81",
   "status": "proved",
   "theorems": [
    "c81_rows_columns"
   ],
   "note": ""
  },
  {
   "property": "C82",
   "status": "proved",
   "theorems": [
    "c82_view"
   ],
   "note": ""
  },
  {
   "property": "C83",
   "status": "proved",
   "theorems": [
    "c83_lists"
   ],
   "note": ""
  },
  {
   "property": "C84",
   "status": "proved",
   "theorems": [
    "c84_columns_and_rows",
    "c84_which_columns",
    "c84_without",
    "c84_other_column_refuted",
    "c84_own",
    "c84_none",
    "c84_opened"
   ],
   "note": ""
  },
  {
   "property": "C85",
   "status": "proved",
   "theorems": [
    "c85_width_and_window",
    "c85_width_refuted",
    "c85_flags_refuted",
    "c85_opened"
   ],
   "note": ""
  },
  {
   "property": "C86",
   "status": "proved",
   "theorems": [
    "c86_fonts",
    "c86_readable",
    "c86_book",
    "c86_no_formatting"
   ],
   "note": ""
  },
  {
   "property": "C87",
   "status": "proved",
   "theorems": [
    "c87_used",
    "c87_no_formatting",
    "c87_book"
   ],
   "note": ""
  },
  {
   "property": "C88",
   "status": "proved",
   "theorems": [
    "c88_styles",
    "c88_unknown_built_in",
    "c88_book",
    "c88_open_refuted"
   ],
   "note": ""
  },
  {
   "property": "C89",
   "status": "proved",
   "theorems": [
    "c89_formats",
    "c89_formats_only",
    "c89_xfs"
   ],
   "note": ""
  },
  {
   "property": "C90",
   "status": "proved",
   "theorems": [
    "c90_content",
    "c90_strings",
    "c90_book",
    "c90_shared",
    "c90_formatting_only_refuted",
    "c90_text_refuted"
   ],
   "note": ""
  },
  {
   "property": "C91",
   "status": "proved",
   "theorems": [
    "c91_sheet",
    "c91_cells",
    "c91_items",
    "c91_codes",
    "c91_old_sheet",
    "c91_globals"
   ],
   "note": ""
  },
  {
   "property": "C92",
   "status": "proved",
   "theorems": [
    "c92_nearest",
    "c92_whole",
    "c92_nonfinite",
    "c92_agrees",
    "c92_round_trip",
    "c92_monotone",
    "c92_order_refuted"
   ],
   "note": ""
  },
  {
   "property": "C93",
   "status": "proved",
   "theorems": [
    "c93_text",
    "c93_forms_agree",
    "c93_shared",
    "c93_area3_refuted",
    "c93_range_refuted",
    "c93_mem_area_refuted",
    "c93_array_refuted"
   ],
   "note": ""
  },
  {
   "property": "C94",
   "status": "proved",
   "theorems": [
    "c94_holds",
    "c94_total",
    "c94_choose_refuted",
    "c94_text",
    "c94_negated_error_refuted",
    "c94_relative_refuted",
    "c94_deep_refuted",
    "c94_workbook"
   ],
   "note": ""
  },
  {
   "property": "C95",
   "status": "proved",
   "theorems": [
    "c95_sheet",
    "c95_workbook"
   ],
   "note": ""
  },
  {
   "property": "C96",
   "status": "proved",
   "theorems": [
    "c96_sheet",
    "c96_old_sheet",
    "c96_workbook",
    "c96_old_workbook"
   ],
   "note": ""
  },
  {
   "property": "C97",
   "status": "proved",
   "theorems": [
    "c97_attributes",
    "c97_countries",
    "c97_user_name",
    "c97_user_name8",
    "c97_no_user"
   ],
   "note": ""
  },
  {
   "property": "C98",
   "status": "proved",
   "theorems": [
    "c98_same_workbook"
   ],
   "note": ""
  },
  {
   "property": "C99",
   "status": "proved",
   "theorems": [
    "c99_worksheet"
   ],
   "note": ""
  },
  {
   "property": "C100",
   "status": "proved",
   "theorems": [
    "c100_ignored"
   ],
   "note": ""
  },
  {
   "property": "C101",
   "status": "proved",
   "theorems": [
    "c101_sheet",
    "c101_workbook"
   ],
   "note": ""
  },
  {
   "property": "C102",
   "status": "proved",
   "theorems": [
    "c102_sheet",
    "c102_workbook"
   ],
   "note": ""
  },
  {
   "property": "C103",
   "status": "proved",
   "theorems": [
    "c103_sheet",
    "c103_cut_off",
    "c103_compound_refuted",
    "c103_old_sheet",
    "c103_old_cut_off",
    "c103_four_w_cut_off"
   ],
   "note": ""
  },
  {
   "property": "C104",
   "status": "proved",
   "theorems": [
    "c104_ignore"
   ],
   "note": ""
  },
  {
   "property": "C105",
   "status": "proved",
   "theorems": [
    "c105_override"
   ],
   "note": ""
  },
  {
   "property": "C106",
   "status": "proved",
   "theorems": [
    "c106_not_a_workbook",
    "c106_only_documented_refuted"
   ],
   "note": ""
  },
  {
   "property": "C107",
   "status": "proved",
   "theorems": [
    "c107_sheets",
    "c107_cells",
    "c107_attributes",
    "c107_xf_refuted"
   ],
   "note": ""
  },
  {
   "property": "C108",
   "status": "proved",
   "theorems": [
    "c108_open"
   ],
   "note": ""
  },
  {
   "property": "C109",
   "status": "proved",
   "theorems": [
    "c109_open"
   ],
   "note": ""
  }
 ]
}