{
 "claims": [
  {
   "property": "C01",
   "status": "proved",
   "theorems": [
    "C01_unique_elements",
    "C01_unique_order",
    "C01_unique_idempotent"
   ],
   "note": ""
  },
  {
   "property": "C02",
   "status": "proved",
   "theorems": [
    "C02_parse_outcomes",
    "C02_parse_surrounding_blanks",
    "C02_parse_rejects_foreign_characters",
    "C02_separators_change_the_answer"
   ],
   "note": ""
  },
  {
   "property": "C03",
   "status": "proved",
   "theorems": [
    "C03_parse_agrees_with_float",
    "C03_float_of_literal"
   ],
   "note": ""
  },
  {
   "property": "C04",
   "status": "proved",
   "theorems": [
    "C04_missing_exponent_letter",
    "C04_inner_blanks_with_E",
    "C04_three_digit_exponent_rejected"
   ],
   "note": "Three-digit exponents and D exponents are rejected, as the property states (C04_three_digit_exponent_rejected, C02_parse_rejects_foreign_characters)."
  },
  {
   "property": "C05",
   "status": "proved",
   "theorems": [
    "C05_chunkify_request"
   ],
   "note": ""
  },
  {
   "property": "C06",
   "status": "proved",
   "theorems": [
    "C06_table"
   ],
   "note": ""
  },
  {
   "property": "C07",
   "status": "partial",
   "theorems": [
    "C07_within_symmetric",
    "C07_within_reflexive",
    "C07_within_never_raises",
    "C07_all_within",
    "C07_opposites_accepted",
    "C07_within_rejects_different_refuted"
   ],
   "note": "REFUTED last clause: every finite number is accepted as equal to its opposite (C07_opposites_accepted, C07_within_rejects_different_refuted). Symmetry, reflexivity, totality and the list version are proved."
  },
  {
   "property": "C08",
   "status": "proved",
   "theorems": [
    "C08_key_length",
    "C08_bad_keys_raise",
    "C08_dispatch",
    "C08_assignment_fails"
   ],
   "note": ""
  },
  {
   "property": "C09",
   "status": "proved",
   "theorems": [
    "C09_query_groups",
    "C09_answer_is_grouping",
    "C09_grouping_unique",
    "C09_row_order"
   ],
   "note": ""
  },
  {
   "property": "C10",
   "status": "proved",
   "theorems": [
    "C10_query_selects_matching_rows"
   ],
   "note": ""
  },
  {
   "property": "C11",
   "status": "partial",
   "theorems": [
    "C11_criteria_are_data_refuted",
    "C11_plain_text_is_data_partial",
    "C11_doubled_quotes_are_data"
   ],
   "note": "REFUTED: C11_criteria_are_data_refuted gives an injected criterion selecting rows that do not match and a quote in a stored author that raises a syntax error. The restricted form for text without quote/NUL is proved (also C09, C10), and so is the form with every quote doubled (C11_doubled_quotes_are_data)."
  },
  {
   "property": "C12",
   "status": "partial",
   "theorems": [
    "C12_star_is_wildcard_partial",
    "C12_star_is_wildcard_refuted",
    "C12_any_pattern",
    "C12_nothing_missed",
    "C12_readings"
   ],
   "note": "REFUTED for patterns containing '_' or '%' (C12_star_is_wildcard_refuted). Proved for all other patterns. For patterns of any characters C12_any_pattern says exactly what is found ('%' is a star too, '_' any one character), and C12_nothing_missed that such a pattern may find too much but misses nothing."
  },
  {
   "property": "C13",
   "status": "proved",
   "theorems": [
    "C13_more_criteria_fewer_matches",
    "C13_ignored_criteria",
    "C13_no_criteria"
   ],
   "note": ""
  },
  {
   "property": "C14",
   "status": "partial",
   "theorems": [
    "C14_contains_entry_partial",
    "C14_contains_subentry_refuted"
   ],
   "note": "REFUTED for 8-character keys: always TypeError (C14_contains_subentry_refuted). Proved for 5-character keys."
  },
  {
   "property": "C15",
   "status": "proved",
   "theorems": [
    "C15_absent_key"
   ],
   "note": ""
  },
  {
   "property": "C16",
   "status": "proved",
   "theorems": [
    "C16_entry_file_raw",
    "C16_retrieve_raw",
    "C16_bad_number"
   ],
   "note": ""
  },
  {
   "property": "C17",
   "status": "partial",
   "theorems": [
    "C17_memory_equals_plain_refuted",
    "C17_memory_always_fails",
    "C17_memory_equals_plain_partial"
   ],
   "note": "REFUTED (C17_memory_equals_plain_refuted): the cached lines are bytes, so every match whose file is non-empty raises TypeError (C17_memory_always_fails). Only queries without a match agree. The custom datapath is not modelled."
  },
  {
   "property": "C18",
   "status": "partial",
   "theorems": [
    "C18_lazy_cache_partial",
    "C18_failed_load_retried",
    "C18_lazy_cache_refuted"
   ],
   "note": "REFUTED in one corner (C18_lazy_cache_refuted): a key seen by a failed load and deleted before the successful one is still served. Everything else of the statement is proved for all histories."
  },
  {
   "property": "C19",
   "status": "proved",
   "theorems": [
    "C19_letters_inverse",
    "C19_letters_functions",
    "C19_letters_value"
   ],
   "note": ""
  },
  {
   "property": "C20",
   "status": "proved",
   "theorems": [
    "C20_getitem_int",
    "C20_getitem_digits",
    "C20_getitem_other_lengths",
    "C20_getitem_full",
    "C20_subentry_number",
    "C20_subentry_accnum"
   ],
   "note": ""
  },
  {
   "property": "C21",
   "status": "proved",
   "theorems": [
    "C21_entry_chunkify"
   ],
   "note": ""
  },
  {
   "property": "C22",
   "status": "partial",
   "theorems": [
    "C22_never_deleted",
    "C22_deleted_refuted"
   ],
   "note": "REFUTED (C22_deleted_refuted): deleted() is never True for any entry (C22_never_deleted)."
  },
  {
   "property": "C23",
   "status": "proved",
   "theorems": [
    "C23_keys"
   ],
   "note": "For entries accepted by X4Entry, with whatever grammar; the REACTION of 001 is tried for every subentry with DATA."
  },
  {
   "property": "C24",
   "status": "proved",
   "theorems": [
    "C24_values",
    "C24_independent",
    "C24_total"
   ],
   "note": "C24_values gives the value under each key as a function of its own attempts only; other exceptions than NotImplementedError and IndexError propagate (C24_total says when none does)."
  },
  {
   "property": "C25",
   "status": "proved",
   "theorems": [
    "C25_simplified"
   ],
   "note": ""
  },
  {
   "property": "C26",
   "status": "partial",
   "theorems": [
    "C26_meta_keeps_entry_partial",
    "C26_meta_other_fields",
    "C26_meta_keeps_entry_refuted"
   ],
   "note": "REFUTED when subentry 001 has no TITLE (C26_meta_keeps_entry_refuted: afterwards repr raises AttributeError); proved when it has one."
  },
  {
   "property": "C27",
   "status": "proved",
   "theorems": [
    "C27_subentry_chunkify"
   ],
   "note": ""
  },
  {
   "property": "C28",
   "status": "proved",
   "theorems": [
    "C28_bib_chunkify_keeps_lines",
    "C28_bib_chunkify_unique"
   ],
   "note": ""
  },
  {
   "property": "C29",
   "status": "proved",
   "theorems": [
    "C29_bib_keeps_fields",
    "C29_last_keyword_wins",
    "C29_repeated_keyword_refuted",
    "C29_empty_section_refuted"
   ],
   "note": "Distinct keywords, as the property states; C29_repeated_keyword_refuted and C29_empty_section_refuted show the stated exceptions."
  },
  {
   "property": "C30",
   "status": "proved",
   "theorems": [
    "C30_plain_field_keeps_lines",
    "C30_plain_field_total"
   ],
   "note": ""
  },
  {
   "property": "C31",
   "status": "proved",
   "theorems": [
    "C31_field_roundtrip",
    "C31_early_pointer_refuted",
    "C31_no_author_refuted"
   ],
   "note": "For fields without a pointer sorting before the blank, as the property states; the exceptions are C31_early_pointer_refuted and C31_no_author_refuted."
  },
  {
   "property": "C32",
   "status": "proved",
   "theorems": [
    "C32_bib_repr_counts"
   ],
   "note": ""
  },
  {
   "property": "C33",
   "status": "proved",
   "theorems": [
    "C33_data_shape"
   ],
   "note": ""
  },
  {
   "property": "C34",
   "status": "proved",
   "theorems": [
    "C34_data_cells",
    "C34_long_line_refuted"
   ],
   "note": "Lines of at most 66 characters, as the property states; C34_long_line_refuted shows the stated exception."
  },
  {
   "property": "C35",
   "status": "proved",
   "theorems": [
    "C35_rows_account_for_lines",
    "C35_rows_announced",
    "C35_other_counts_refused",
    "C35_dropped_line_refuted"
   ],
   "note": "The first two counting conventions, as the property states; C35_dropped_line_refuted shows the stated exception."
  },
  {
   "property": "C36",
   "status": "proved",
   "theorems": [
    "C36_pointer_columns",
    "C36_equal_headings_refuted"
   ],
   "note": "Distinct headings, as the property states; C36_equal_headings_refuted shows the stated exception."
  },
  {
   "property": "C37",
   "status": "proved",
   "theorems": [
    "C37_data_roundtrip",
    "C37_wide_table_refuted"
   ],
   "note": "Under the conditions the property states; C37_wide_table_refuted shows the stated exception."
  },
  {
   "property": "C38",
   "status": "proved",
   "theorems": [
    "C38_value_no_memory",
    "C38_error_no_memory",
    "C38_match_no_memory",
    "C38_simplified_no_memory"
   ],
   "note": ""
  },
  {
   "property": "C39",
   "status": "partial",
   "theorems": [
    "C39_threads_refuted",
    "C39_threads_same_headings"
   ],
   "note": "REFUTED: C39_threads_refuted exhibits a schedule after which one of two concurrent getSimplified calls returns the values of another column; C39_threads_same_headings proves the property for data sets with equal labels and units, for every schedule."
  },
  {
   "property": "C40",
   "status": "proved",
   "theorems": [
    "C40_factor_listed",
    "C40_factor_unlisted",
    "C40_factor_odd",
    "C40_factor_canonical",
    "C40_canonical_reached",
    "C40_isMatch",
    "C40_firstMatch",
    "C40_column",
    "C40_column_canonical",
    "C40_column_cosine"
   ],
   "note": ""
  },
  {
   "property": "C41",
   "status": "proved",
   "theorems": [
    "C41_not_negative",
    "C41_parser_error_not_negative"
   ],
   "note": ""
  },
  {
   "property": "C42",
   "status": "proved",
   "theorems": [
    "C42_full_column",
    "C42_always_column",
    "C42_average"
   ],
   "note": ""
  },
  {
   "property": "C43",
   "status": "proved",
   "theorems": [
    "C43_condense",
    "C43_simplified_values",
    "C43_simplified_errors"
   ],
   "note": ""
  },
  {
   "property": "C44",
   "status": "proved",
   "theorems": [
    "C44_percent"
   ],
   "note": "Independent value/error pairs, the ones that percentages reach apart from C64 (error bars)."
  },
  {
   "property": "C45",
   "status": "partial",
   "theorems": [
    "C45_parser_fails",
    "C45_never_simplified",
    "C45_conversion_refuted"
   ],
   "note": "REFUTED: C45_conversion_refuted; C45_never_simplified proves that no data set with DATA in B*RT-EV is ever simplified."
  },
  {
   "property": "C46",
   "status": "proved",
   "theorems": [
    "C46_setData",
    "C46_parsed_sections",
    "C46_own_columns",
    "C46_pointers_in_common_refuted",
    "C46_same_common_refuted"
   ],
   "note": "The stated exceptions are C46_pointers_in_common_refuted and C46_same_common_refuted. C46_parsed_sections: every parsed section meets section_ok."
  },
  {
   "property": "C47",
   "status": "proved",
   "theorems": [
    "C47_shape",
    "C47_nothing_to_do"
   ],
   "note": "That the original is unchanged is part of the value model (getSimplified returns a new data set); what sharing of lists by copy.copy does is C74."
  },
  {
   "property": "C48",
   "status": "proved",
   "theorems": [
    "C48_append",
    "C48_append_total"
   ],
   "note": ""
  },
  {
   "property": "C49",
   "status": "proved",
   "theorems": [
    "C49_kind",
    "C49_one_kind",
    "C49_some_kind",
    "C49_data_do_not_matter"
   ],
   "note": "Combinations whose reactions differ in quantity raise NotImplementedError (example); X4EnergyAngle data sets are never made."
  },
  {
   "property": "C50",
   "status": "proved",
   "theorems": [
    "C50_metadata",
    "C50_bib"
   ],
   "note": ""
  },
  {
   "property": "C51",
   "status": "partial",
   "theorems": [
    "C51_residual_conserves_partial",
    "C51_zero_total_refuted"
   ],
   "note": "Proved for every target, projectile and product list (C51_residual_conserves_partial) except when total Z and A are both zero, where it is false (C51_zero_total_refuted). Z and A are the values of getZ/getA (natural elements have A = -3000)."
  },
  {
   "property": "C52",
   "status": "proved",
   "theorems": [
    "C52_scattering_leaves_target"
   ],
   "note": ""
  },
  {
   "property": "C53",
   "status": "partial",
   "theorems": [
    "C53_capture_residual_partial",
    "C53_light_capture_refuted"
   ],
   "note": "REFUTED for light systems (C53_light_capture_refuted); proved whenever total A exceeds total Z and the compound nucleus is in the element table."
  },
  {
   "property": "C54",
   "status": "partial",
   "theorems": [
    "C54_combination_elements",
    "C54_equation_spells_partial",
    "C54_all_reactions",
    "C54_isomer_terms_refuted"
   ],
   "note": "REFUTED when a term is an isomer combination (C54_isomer_terms_refuted); proved for all other combinations."
  },
  {
   "property": "C55",
   "status": "proved",
   "theorems": [
    "C55_endlZA_unambiguous",
    "C55_endlZA_texts",
    "C55_endlZA_states",
    "C55_beyond_bound_refuted"
   ],
   "note": ""
  },
  {
   "property": "C56",
   "status": "proved",
   "theorems": [
    "C56_symbols_inverse",
    "C56_known_charges",
    "C56_round_trip"
   ],
   "note": ""
  },
  {
   "property": "C57",
   "status": "proved",
   "theorems": [
    "C57_same_dictionary",
    "C57_inverse",
    "C57_different_files",
    "C57_filenames",
    "C57_unknown",
    "C57_all_dictionaries"
   ],
   "note": ""
  },
  {
   "property": "C58",
   "status": "proved",
   "theorems": [
    "C58_getDictionary_slices",
    "C58_pieces_cover"
   ],
   "note": ""
  },
  {
   "property": "C59",
   "status": "proved",
   "theorems": [
    "C59_year_of_full_dates",
    "C59_year_of_short_dates",
    "C59_four_digits",
    "C59_other_lengths_unchanged",
    "C59_other_lengths_refuted",
    "C59_closing_brackets_ignored",
    "C59_junk_rejected"
   ],
   "note": "As stated: other lengths come back unchanged (C59_other_lengths_unchanged)."
  },
  {
   "property": "C60",
   "status": "partial",
   "theorems": [
    "C60_monitor_items_partial",
    "C60_continuation_refuted",
    "C60_heading",
    "C60_no_heading",
    "C60_remark",
    "C60_missing_line_refuted"
   ],
   "note": "REFUTED (C60_continuation_refuted, C60_missing_line_refuted); C60_monitor_items_partial proves which items are read when no continuation is needed. A heading is read only where the text begins with ((MONIT: C60_heading, C60_no_heading, C60_remark."
  },
  {
   "property": "C61",
   "status": "proved",
   "theorems": [
    "C61_interrupted_download",
    "C61_interrupted_attempts",
    "C61_download_completes",
    "C61_tag_alone_insufficient"
   ],
   "note": ""
  },
  {
   "property": "C62",
   "status": "partial",
   "theorems": [
    "C62_subentry_number_refuted",
    "C62_entry_repr_refuted",
    "C62_layout",
    "C62_sections_read_back"
   ],
   "note": "REFUTED for every subentry and entry as a whole (C62_subentry_number_refuted: the number comes back shifted; C62_entry_repr_refuted: a printed entry is refused). What does hold: C62_layout gives the printed text exactly, and C62_sections_read_back proves that the BIB, COMMON and DATA sections of a printed subentry are read back exactly the same (parsed reactions, authors and numbers included), for sections with distinct keywords, pointers in order and one to six columns."
  },
  {
   "property": "C63",
   "status": "proved",
   "theorems": [
    "C63_failures",
    "C63_cosine_refuted"
   ],
   "note": "With the exception named in the statement (C63_cosine_refuted)."
  },
  {
   "property": "C64",
   "status": "proved",
   "theorems": [
    "C64_bars",
    "C64_mixed_refuted"
   ],
   "note": "With the exception named in the statement (C64_mixed_refuted)."
  },
  {
   "property": "C65",
   "status": "proved",
   "theorems": [
    "C65_one_unit",
    "C65_mixed_units_refuted"
   ],
   "note": "With the exception named in the statement (C65_mixed_units_refuted)."
  },
  {
   "property": "C66",
   "status": "proved",
   "theorems": [
    "C66_again"
   ],
   "note": ""
  },
  {
   "property": "C67",
   "status": "proved",
   "theorems": [
    "C67_shipped",
    "C67_field",
    "C67_compound",
    "C67_reaction",
    "C67_products_refuted"
   ],
   "note": "Read through a model of pyparsing 2 and of every grammar of exfor_grammers.py. C67_products_refuted shows that the restrictions on product codes are needed. Codes with a chemical compound as target or with ELEM/MASS as residual are not covered by C67_field, they are by the model."
  },
  {
   "property": "C68",
   "status": "proved",
   "theorems": [
    "C68_written",
    "C68_computed",
    "C68_written_refuted"
   ],
   "note": "C68_written_refuted has the cases where the written residual is lost."
  },
  {
   "property": "C69",
   "status": "proved",
   "theorems": [
    "C69_combination"
   ],
   "note": "For combinations of reactions as in C68."
  },
  {
   "property": "C70",
   "status": "proved",
   "theorems": [
    "C70_roundtrip",
    "C70_roundtrip_refuted"
   ],
   "note": "C70_roundtrip_refuted has the cases excluded by the statement."
  },
  {
   "property": "C71",
   "status": "proved",
   "theorems": [
    "C71_authors",
    "C71_no_authors",
    "C71_authors_refuted"
   ],
   "note": "Read through the pyparsing model. C71_authors_refuted has the cases excluded by the statement. How the lines of a field fall under its pointers is C30."
  },
  {
   "property": "C72",
   "status": "proved",
   "theorems": [
    "C72_institutes",
    "C72_institutes_refuted"
   ],
   "note": "C72_institutes_refuted has the cases excluded by the statement."
  },
  {
   "property": "C73",
   "status": "proved",
   "theorems": [
    "C73_references",
    "C73_references_refuted"
   ],
   "note": "Each code of a ((...)=(...)) reference is read as a reference of its own. The year is as in C59. C73_references_refuted has the cases excluded by the statement."
  },
  {
   "property": "C74",
   "status": "proved",
   "theorems": [
    "C74_independent",
    "C74_independent_refuted"
   ],
   "note": "On a heap model of the lists (Model/Heap.v). C74_independent_refuted has the cases excluded by the statement."
  },
  {
   "property": "C75",
   "status": "proved",
   "theorems": [
    "C75_append",
    "C75_append_to_itself",
    "C75_append_refuted"
   ],
   "note": "On a heap model of the lists. C75_append_to_itself and C75_append_refuted have the cases excluded by the statement."
  },
  {
   "property": "C76",
   "status": "proved",
   "theorems": [
    "C76_dataset",
    "C76_dataset_numbers",
    "C76_section"
   ],
   "note": "csv.writer of the standard library is modelled (excel dialect, QUOTE_MINIMAL, lineterminator newline); repr of floats is any function whose texts consist of number characters."
  },
  {
   "property": "C77",
   "status": "proved",
   "theorems": [
    "C77_lookup",
    "C77_shipped"
   ],
   "note": "C77_lookup is for any table text, C77_shipped for the one in abundance.py."
  },
  {
   "property": "C78",
   "status": "proved",
   "theorems": [
    "C78_data_set",
    "C78_cross_section"
   ],
   "note": "For reactions without pointers and tables with headings of at most ten characters. That reading succeeds is a hypothesis."
  },
  {
   "property": "C79",
   "status": "proved",
   "theorems": [
    "C79_simplified"
   ],
   "note": "C79_simplified equates the model's getSimplified (parser objects, stored column numbers, condensing, assembling) with read_table of Spec/Readings.v for all inputs under the stated restrictions; the flat list of headings, units and readings there is written independently of the model's lists. Note the readings the code makes: with only an upper limit the value is half that limit; with uncertainties down and up the value moves to the middle of the interval; if one of ERR, ERR-S is in percent both are taken as percentages."
  },
  {
   "property": "C80",
   "status": "proved",
   "theorems": [
    "C80_nearest",
    "C80_doubles",
    "C80_same_number"
   ],
   "note": "denotes (Spec/Doubles.v) lists the ways of writing numbers and the real each denotes; nearest is stated over all doubles as reals. Uses the axioms of Coq's Reals (listed by Print Assumptions) through Flocq."
  },
  {
   "property": "C81",
   "status": "proved",
   "theorems": [
    "C81_repr",
    "C81_dataset_csv",
    "C81_section_csv"
   ],
   "note": "repr_float (Model/Repr.v) models CPython's float_repr (shortest digits that read back, exponent form below 1e-4 and from 1e16); the function is tried against CPython on random doubles outside Coq. Uses the axioms of Coq's Reals through Flocq. With C76 this discharges the repr oracle used there."
  },
  {
   "property": "C82",
   "status": "proved",
   "theorems": [
    "C82_reads_back",
    "C82_reads_back_exactly",
    "C82_columns_run_together_refuted"
   ],
   "note": "12-digit accuracy (to_12_digits, Spec/Printing.v) under the stated width condition, exact for short numbers; the failure without it is proved by C82_columns_run_together_refuted from the text of an entry. Uses the axioms of Coq's Reals through Flocq."
  },
  {
   "property": "C83",
   "status": "proved",
   "theorems": [
    "C83_reads_back",
    "C83_reads_back_short",
    "C83_columns_run_together_refuted"
   ],
   "note": "Under the stated width condition; the failure without it is proved by C83_columns_run_together_refuted. Uses the axioms of Coq's Reals through Flocq."
  },
  {
   "property": "C84",
   "status": "proved",
   "theorems": [
    "C84_cross_section",
    "C84_unit",
    "C84_cell",
    "C84_operations"
   ],
   "note": "C84_cross_section is end to end from the text of the entry (hypotheses of C78, with the tables as real numbers); C84_cell covers the columns of the readings of C79; C84_operations relates the model's arithmetic (SpecFloat) to the reals. Uses the axioms of Coq's Reals through Flocq."
  },
  {
   "property": "C85",
   "status": "proved",
   "theorems": [
    "C85_data_sets",
    "C85_simplified",
    "C85_printed",
    "C85_other_column_refuted",
    "C85_append_refuted"
   ],
   "note": "C85_data_sets, C85_simplified and C85_printed over all entries; the two surprising consequences in the statement are C85_other_column_refuted and C85_append_refuted."
  },
  {
   "property": "C86",
   "status": "proved",
   "theorems": [
    "C86_read",
    "C86_process",
    "C86_combination",
    "C86_antiproton_refuted"
   ],
   "note": "C86_antiproton_refuted: the statement itself names the exception"
  },
  {
   "property": "C87",
   "status": "proved",
   "theorems": [
    "C87_read",
    "C87_simplified",
    "C87_cosines",
    "C87_cross_section"
   ],
   "note": "Success of reading, as opposed to its result given success, for texts described by Spec/WellWritten.v. C87_fault shows that one field that does not keep to the format loses the entry."
  },
  {
   "property": "C88",
   "status": "proved",
   "theorems": [
    "C88_reactions",
    "C88_data_sets",
    "C88_simplified",
    "C88_well_written",
    "C88_well_simplified",
    "C88_quantity_refuted",
    "C88_multiplicity_refuted"
   ],
   "note": "C88_reactions, C88_data_sets and C88_simplified hold for every text and entry that is read; C88_well_written and C88_well_simplified need no properness hypothesis. The two forms that are read but not printed are C88_quantity_refuted and C88_multiplicity_refuted."
  },
  {
   "property": "C89",
   "status": "proved",
   "theorems": [
    "C89_directory",
    "C89_shipped",
    "C89_entries",
    "C89_simplified"
   ],
   "note": "C89_directory is about any files; C89_shipped checks the shipped files, which are part of the model as text (Model/ShippedDicts.v), by computation; C89_entries and C89_simplified are C87 and C88 without hypotheses on dictionaries."
  },
  {
   "property": "C90",
   "status": "proved",
   "theorems": [
    "C90_pieces",
    "C90_read",
    "C90_text",
    "C90_names",
    "C90_combination"
   ],
   "note": "The conditions on codes are those of Spec/General.v (a listed particle code after X that does not run into another one, no nuclide before the last product) and Spec/GeneralKnown.v (codes in the tables; the charge left over, if it is worked out, is that of an element or absurd because of a sum). Isomer ratios (M1/M2) are not among the codes."
  },
  {
   "property": "C91",
   "status": "proved",
   "theorems": [
    "C91_read",
    "C91_combination",
    "C91_quantities_refuted",
    "C91_total_refuted",
    "C91_inelastic_refuted",
    "C91_sixth_refuted"
   ],
   "note": "C91_read and C91_combination; what is lost is shown by C91_quantities_refuted, C91_total_refuted, C91_inelastic_refuted and C91_sixth_refuted. Restricted to targets that are a compound or a nucleus with at most one isomer part, projectiles without isomer parts and products that are particles or processes (XN and nuclides as products are rebuilt differently)."
  },
  {
   "property": "C92",
   "status": "proved",
   "theorems": [
    "C92_file",
    "C92_search",
    "C92_shipped"
   ],
   "note": "C92_search for any dictionaries that suffice, C92_shipped with the ones that are shipped, C92_file for a whole file."
  },
  {
   "property": "C93",
   "status": "proved",
   "theorems": [
    "C93_parsing",
    "C93_tabs",
    "C93_always_answers"
   ],
   "note": "The rules are an inductive relation without bounds (Spec/Peg.v), the grammars are written down once more in Spec/Grammar.v; C93_parsing is an equivalence, so the bounds of the model (rounds of a loop, unrolled recursion) cut nothing off. C93_not_always: grammars with an empty repetition or left recursion have no answer. The text that is parsed is the text with its tabs replaced by blanks up to the next multiple of eight columns: an inductive relation too (C93_tabs: there is exactly one such text)."
  },
  {
   "property": "C94",
   "status": "proved",
   "theorems": [
    "C94_data_set",
    "C94_simplified",
    "C94_unlike",
    "C94_common_refuted"
   ],
   "note": "C94_data_set, C94_simplified, C94_unlike; the stated exception is C94_common_refuted (entry 13150 of the library). Two headings with the same label and pointer are excluded (C36 shows what happens to them). Conformance/RealEntriesFound.v: of the 241 data sets of the hundred entries, 236 meet the hypotheses."
  },
  {
   "property": "C95",
   "status": "proved",
   "theorems": [
    "C95_search",
    "C95_shipped",
    "C95_subentry",
    "C95_file",
    "C95_raw",
    "C95_twice"
   ],
   "note": "C95_search is the composition, C95_shipped draws it for the dictionaries of the package, C95_subentry for db[number], C95_file for a file by itself; C95_raw holds for every index and every file system; C95_twice is about examples/plotX4.py."
  },
  {
   "property": "C96",
   "status": "proved",
   "theorems": [
    "C96_str",
    "C96_shipped",
    "C96_repr",
    "C96_parsed_refuted"
   ],
   "note": "C96_str is the claim, C96_shipped draws it for the dictionaries of the package, C96_repr is the equivalence for repr, C96_parsed_refuted refutes the docstring. The tables are shown as C83 says, reactions as C88 and C90 say."
  },
  {
   "property": "C97",
   "status": "proved",
   "theorems": [
    "C97_entry",
    "C97_data_sets",
    "C97_simplified",
    "C97_shipped",
    "C97_dated_refuted"
   ],
   "note": "C97_entry, C97_data_sets and C97_simplified are the claim, C97_shipped draws it for the dictionaries of the package. A title that reads None counts as missing. C97_entry supposes of the citation that the text ?????.??? does not occur in it. C97_dated_refuted shows that the date is not that of the file."
  },
  {
   "property": "C98",
   "status": "proved",
   "theorems": [
    "C98_data",
    "C98_shipped",
    "C98_rawdata",
    "C98_main",
    "C98_doc",
    "C98_rawdoc",
    "C98_entry",
    "C98_raw",
    "C98_raw_file",
    "C98_absent",
    "C98_absent_entry",
    "C98_compressed",
    "C98_help_refuted"
   ],
   "note": "C98_data, C98_shipped (with the shipped dictionaries), C98_rawdata, C98_doc, C98_rawdoc, C98_entry, C98_raw, C98_raw_file, C98_main, C98_absent, C98_absent_entry, C98_compressed; C98_help_refuted shows that --doc and --raw do not do what their help texts say. argparse and the SQL engine's file access are not modelled."
  },
  {
   "property": "C99",
   "status": "proved",
   "theorems": [
    "C99_field",
    "C99_data",
    "C99_entry",
    "C99_field_exact",
    "C99_data_exact",
    "C99_entry_exact",
    "C99_endless"
   ],
   "note": "C99_field, C99_data and C99_entry are the bounds; C99_field_exact, C99_data_exact and C99_entry_exact say that the tables (Spec/Damage.v) are exactly the exceptions that occur; C99_endless is the endless isomer math, for every recursion limit. Texts whose parentheses nest deeper than the recursion limit of the interpreter lets pyparsing follow (a RecursionError in any of the parsed fields) are outside the model, as are fields without lines."
  },
  {
   "property": "C100",
   "status": "proved",
   "theorems": [
    "C100_sets",
    "C100_whole",
    "C100_no_heading",
    "C100_simplified",
    "C100_simplified_whole",
    "C100_key_error",
    "C100_named",
    "C100_proper",
    "C100_sets_exact",
    "C100_simplified_exact",
    "C100_recorded_exact",
    "C100_simply_recorded_exact"
   ],
   "note": "C100_sets and C100_simplified are the bounds, C100_whole and C100_simplified_whole the case that the heading is there and the reactions can be printed, C100_no_heading the other one; C100_key_error, C100_named and C100_proper are the case that the dictionaries name everything (`naming`, which the shipped ones do: C89); the _exact theorems say that the tables (Spec/Damage.v) are exactly what occurs. An entry with a text without SUBENT line is outside (`numbered`): the model does not follow its metadata."
  }
 ]
}