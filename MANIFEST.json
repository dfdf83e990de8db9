{
 "claims": [
  {
   "property": "C01",
   "status": "proved",
   "theorems": [
    "C01_head_za",
    "C01_head_made",
    "C01_cont_round_trip",
    "C01_cont_round_trip_rounded"
   ],
   "note": ""
  },
  {
   "property": "C02",
   "status": "proved",
   "theorems": [
    "C02_list_round_trip",
    "C02_list_round_trip_rounded"
   ],
   "note": ""
  },
  {
   "property": "C03",
   "status": "proved",
   "theorems": [
    "C03_tab1_round_trip",
    "C03_tab1_round_trip_rounded"
   ],
   "note": ""
  },
  {
   "property": "C04",
   "status": "proved",
   "theorems": [
    "C04_tab2_round_trip",
    "C04_tab2_round_trip_rounded"
   ],
   "note": ""
  },
  {
   "property": "C05",
   "status": "proved",
   "theorems": [
    "C05_text_round_trip",
    "C05_tpid_round_trip"
   ],
   "note": ""
  },
  {
   "property": "C06",
   "status": "proved",
   "theorems": [
    "C06_dir_round_trip"
   ],
   "note": ""
  },
  {
   "property": "C07",
   "status": "proved",
   "theorems": [
    "C07_intg_round_trip",
    "C07_intg_capacity"
   ],
   "note": ""
  },
  {
   "property": "C08",
   "status": "proved",
   "theorems": [
    "C08_section",
    "C08_printed_tape",
    "C08_printed_material",
    "C08_printed_file",
    "C08_cont_layout",
    "C08_list_layout",
    "C08_tab2_layout",
    "C08_tab1_layout",
    "C08_text_layout",
    "C08_tpid_layout",
    "C08_dir_layout",
    "C08_intg_layout",
    "C08_structure_layout"
   ],
   "note": ""
  },
  {
   "property": "C09",
   "status": "proved",
   "theorems": [
    "C09_typed_file",
    "C09_typed_material",
    "C09_typed_tape",
    "C09_record_reads_consume_own_lines",
    "C09_sequence_reads_consume_own_lines",
    "C09_lines_consumed_is_NC",
    "C09_sections"
   ],
   "note": ""
  },
  {
   "property": "C10",
   "status": "proved",
   "theorems": [
    "C10_parsed_tables_are_consistent"
   ],
   "note": ""
  },
  {
   "property": "C11",
   "status": "proved",
   "theorems": [
    "C11_regions_cover_the_table",
    "C11_region",
    "C11_defined",
    "C11_empty_region_refuted"
   ],
   "note": ""
  },
  {
   "property": "C12",
   "status": "proved",
   "theorems": [
    "C12_list_negative_count",
    "C12_table_counts",
    "C12_last_boundary_mismatch",
    "C12_unsorted_boundaries",
    "C12_unsorted_x"
   ],
   "note": ""
  },
  {
   "property": "C13",
   "status": "proved",
   "theorems": [
    "C13_list_junk",
    "C13_boundary_junk",
    "C13_pairs_junk"
   ],
   "note": ""
  },
  {
   "property": "C14",
   "status": "proved",
   "theorems": [
    "C14_only_std_exception_escapes",
    "C14_sequences",
    "C14_intg_truncated_refuted",
    "C14_intg_complete_line"
   ],
   "note": ""
  },
  {
   "property": "C15",
   "status": "proved",
   "theorems": [
    "C15_at_most_one_kind",
    "C15_constructors",
    "C15_end_records_round_trip",
    "C15_head_round_trip"
   ],
   "note": ""
  },
  {
   "property": "C16",
   "status": "proved",
   "theorems": [
    "C16_real_fields",
    "C16_nearest",
    "C16_printed_decimal",
    "C16_print_read_print_stable",
    "C16_short_decimals_survive",
    "C16_order_preserved",
    "C16_largest_double_refuted"
   ],
   "note": ""
  },
  {
   "property": "C17",
   "status": "proved",
   "theorems": [
    "C17_integer_fields",
    "C17_malformed",
    "C17_integer_columns"
   ],
   "note": ""
  },
  {
   "property": "C18",
   "status": "proved",
   "theorems": [
    "C18_tape",
    "C18_file",
    "C18_material"
   ],
   "note": ""
  },
  {
   "property": "C19",
   "status": "proved",
   "theorems": [
    "C19_lookups"
   ],
   "note": ""
  },
  {
   "property": "C20",
   "status": "proved",
   "theorems": [
    "C20_histories",
    "C20_last_put_wins",
    "C20_insert_existing"
   ],
   "note": ""
  },
  {
   "property": "C21",
   "status": "proved",
   "theorems": [
    "C21_ordered",
    "C21_material_numbers",
    "C21_file_content",
    "C21_material_content",
    "C21_tape_content"
   ],
   "note": ""
  },
  {
   "property": "C22",
   "status": "proved",
   "theorems": [
    "C22_histories",
    "C22_every_tape_shows"
   ],
   "note": ""
  },
  {
   "property": "C23",
   "status": "proved",
   "theorems": [
    "C23_file_edits",
    "C23_insert_file",
    "C23_section_edits",
    "C23_empty_file_refuted"
   ],
   "note": ""
  },
  {
   "property": "C24",
   "status": "proved",
   "theorems": [
    "C24_clean",
    "C24_idempotent",
    "C24_printed_unchanged",
    "C24_tape"
   ],
   "note": ""
  },
  {
   "property": "C25",
   "status": "proved",
   "theorems": [
    "C25_failed_clean",
    "C25_succeeds_iff",
    "C25_content_lost_refuted",
    "C25_no_newline_refuted"
   ],
   "note": ""
  },
  {
   "property": "C26",
   "status": "proved",
   "theorems": [
    "C26_directory",
    "C26_absent",
    "C26_tape",
    "C26_no_description_refuted",
    "C26_not_first_refuted"
   ],
   "note": ""
  },
  {
   "property": "C27",
   "status": "proved",
   "theorems": [
    "C27_modification_numbers",
    "C27_others_untouched",
    "C27_failure",
    "C27_idempotent",
    "C27_unordered_refuted",
    "C27_undefined"
   ],
   "note": ""
  },
  {
   "property": "C28",
   "status": "proved",
   "theorems": [
    "C28_mixed_file_refuted",
    "C28_mixed_section_refuted",
    "C28_no_tend",
    "C28_duplicates",
    "C28_unterminated_section",
    "C28_missing_send_refuted",
    "C28_lone_head_refuted"
   ],
   "note": ""
  },
  {
   "property": "C29",
   "status": "proved",
   "theorems": [
    "C29_only_sections_matter",
    "C29_redundant_end_records"
   ],
   "note": ""
  },
  {
   "property": "C30",
   "status": "proved",
   "theorems": [
    "C30_library",
    "C30_section",
    "C30_file",
    "C30_material"
   ],
   "note": ""
  },
  {
   "property": "C31",
   "status": "proved",
   "theorems": [
    "C31_classes",
    "C31_library",
    "C31_round_trip",
    "C31_any_order",
    "C31_duplicates",
    "C31_read_consistent",
    "C31_make",
    "C31_lookups",
    "C31_print_order"
   ],
   "note": ""
  },
  {
   "property": "C32",
   "status": "proved",
   "theorems": [
    "C32_library_material",
    "C32_library_tape",
    "C32_file_30",
    "C32_material_round_trip",
    "C32_any_order",
    "C32_duplicates",
    "C32_unknown_file",
    "C32_read_consistent",
    "C32_tape_round_trip",
    "C32_tape_exact",
    "C32_lookups",
    "C32_tape_lookups",
    "C32_tape_not_empty"
   ],
   "note": ""
  },
  {
   "property": "C33",
   "status": "proved",
   "theorems": [
    "C33_mf8_skipped",
    "C33_mf30_refuted",
    "C33_mf30_dropped",
    "C33_mf8_dropped",
    "C33_empty_file_refuted"
   ],
   "note": ""
  },
  {
   "property": "C34",
   "status": "proved",
   "theorems": [
    "C34_number_refuted",
    "C34_text"
   ],
   "note": ""
  },
  {
   "property": "C35",
   "status": "proved",
   "theorems": [
    "C35_tab1_constructor_exact",
    "C35_wraparound_refuted",
    "C35_empty_boundaries_refuted",
    "C35_sequence_wraparound_refuted",
    "C35_negative_boundary_refuted",
    "C35_flag_wraparound_refuted"
   ],
   "note": ""
  },
  {
   "property": "C36",
   "status": "proved",
   "theorems": [
    "C36_section",
    "C36_nc",
    "C36_description",
    "C36_constructor",
    "C36_padding",
    "C36_long_line_refuted"
   ],
   "note": ""
  },
  {
   "property": "C37",
   "status": "proved",
   "theorems": [
    "C37_mt452",
    "C37_mt456",
    "C37_mt455",
    "C37_LNU_rejected",
    "C37_455_flags_rejected",
    "C37_flags_kept",
    "C37_decay_constants"
   ],
   "note": ""
  },
  {
   "property": "C38",
   "status": "proved",
   "theorems": [
    "C38_mf3",
    "C38_mf23",
    "C38_mf27",
    "C38_NC"
   ],
   "note": ""
  },
  {
   "property": "C39",
   "status": "proved",
   "theorems": [
    "C39_records",
    "C39_library",
    "C39_head_checked",
    "C39_constructor_checked",
    "C39_455_refuted",
    "C39_others_checked"
   ],
   "note": ""
  },
  {
   "property": "C40",
   "status": "proved",
   "theorems": [
    "C40_closed_by_SEND",
    "C40_not_closed"
   ],
   "note": ""
  },
  {
   "property": "C41",
   "status": "proved",
   "theorems": [
    "C41_tape",
    "C41_tape_lines",
    "C41_file",
    "C41_typed_tape",
    "C41_material",
    "C41_file_rejected",
    "C41_material_rejected",
    "C41_truncated_list",
    "C41_truncated_tab2",
    "C41_truncated_tab1",
    "C41_empty_text",
    "C41_section",
    "C41_parse",
    "C41_rejected"
   ],
   "note": ""
  },
  {
   "property": "C42",
   "status": "proved",
   "theorems": [
    "C42_cont_columns",
    "C42_list_columns",
    "C42_tab2_columns",
    "C42_tab1_columns",
    "C42_dir_text_columns"
   ],
   "note": ""
  },
  {
   "property": "C74",
   "status": "proved",
   "theorems": [
    "C74_records",
    "C74_section",
    "C74_parse",
    "C74_file",
    "C74_material",
    "C74_tape",
    "C74_lines",
    "C74_trimmed"
   ],
   "note": ""
  },
  {
   "property": "C75",
   "status": "proved",
   "theorems": [
    "C75_records",
    "C75_intg",
    "C75_section",
    "C75_parse",
    "C75_file",
    "C75_material",
    "C75_tape",
    "C75_clean",
    "C75_refuted",
    "C75_cleaned_material",
    "C75_cleaned_tape",
    "C75_clean_file",
    "C75_clean_material",
    "C75_clean_tape",
    "C75_clean_refuted"
   ],
   "note": ""
  },
  {
   "property": "C76",
   "status": "proved",
   "theorems": [
    "C76_file_determined",
    "C76_material_determined",
    "C76_tape_determined",
    "C76_edits_commute",
    "C76_sections_any_order",
    "C76_materials_any_order",
    "C76_histories",
    "C76_inserted_any_order",
    "C76_order_matters_refuted"
   ],
   "note": ""
  },
  {
   "property": "C77",
   "status": "proved",
   "theorems": [
    "C77_material",
    "C77_tape",
    "C77_replace",
    "C77_remove",
    "C77_insert",
    "C77_tape_replace",
    "C77_refuted"
   ],
   "note": ""
  },
  {
   "property": "C43",
   "status": "proved",
   "theorems": [
    "C43_accepted_tapes",
    "C43_otherwise_rejected"
   ],
   "note": ""
  },
  {
   "property": "C45",
   "status": "proved",
   "theorems": [
    "C45_mt458",
    "C45_mt460",
    "C45_458_tables"
   ],
   "note": ""
  },
  {
   "property": "C44",
   "status": "proved",
   "theorems": [
    "C44_library",
    "C44_missing_tend_refuted",
    "C44_file_ends",
    "C44_material_ends",
    "C44_mf8_refuted"
   ],
   "note": ""
  },
  {
   "property": "C52",
   "status": "proved",
   "theorems": [
    "C52_mf9",
    "C52_mf10",
    "C52_lookup"
   ],
   "note": ""
  },
  {
   "property": "C53",
   "status": "proved",
   "theorems": [
    "C53_partial15",
    "C53_ES_truncated_refuted",
    "C53_isotropic_energies",
    "C53_energies",
    "C53_energies_tabulated",
    "C53_mf12",
    "C53_mf13",
    "C53_mf14",
    "C53_mf15",
    "C53_mat14_refuted",
    "C53_mf12_undefined",
    "C53_mf12_defined",
    "C53_mf12_safe",
    "C53_mf12_undefined_reachable",
    "C53_ragged_refuted",
    "C53_ragged_undefined",
    "C53_transitions_defined",
    "C53_transitions",
    "C53_transitions_conditional",
    "C53_total_refuted",
    "C53_mixed_photons_refuted",
    "C53_EG_truncated_refuted",
    "C53_photon_counts",
    "C53_parse_undefined_reachable"
   ],
   "note": ""
  },
  {
   "property": "C54",
   "status": "proved",
   "theorems": [
    "C54_mf28",
    "C54_mf28_safe",
    "C54_mf28_undefined_reachable",
    "C54_transitions",
    "C54_no_transitions_refuted",
    "C54_subshell",
    "C54_mf26",
    "C54_mf26_safe",
    "C54_undefined_reachable",
    "C54_product"
   ],
   "note": ""
  },
  {
   "property": "C47",
   "status": "proved",
   "theorems": [
    "C47_mf4",
    "C47_flags",
    "C47_getters",
    "C47_mixed_ranges",
    "C47_mixed"
   ],
   "note": ""
  },
  {
   "property": "C48",
   "status": "proved",
   "theorems": [
    "C48_mf5",
    "C48_partial_ctor",
    "C48_count"
   ],
   "note": ""
  },
  {
   "property": "C49",
   "status": "proved",
   "theorems": [
    "C49_lookup",
    "C49_kalbach",
    "C49_kalbach_accepts",
    "C49_mf6",
    "C49_mf6_safe",
    "C49_undefined_reachable",
    "C49_product",
    "C49_legendre",
    "C49_tabulated",
    "C49_no_cosines_refuted",
    "C49_amplitudes",
    "C49_amplitudes_refuted",
    "C49_legendre5",
    "C49_law1_undefined",
    "C49_no_coefficients",
    "C49_no_energies_refuted",
    "C49_elsewhere_refuted"
   ],
   "note": ""
  },
  {
   "property": "C55",
   "status": "proved",
   "theorems": [
    "C55_E2_refuted",
    "C55_energies",
    "C55_mf31",
    "C55_mf33",
    "C55_mf34",
    "C55_mf35",
    "C55_mf40",
    "C55_mf34_fits",
    "C55_mf31_safe",
    "C55_mf33_safe",
    "C55_mf34_safe",
    "C55_mf35_safe",
    "C55_mf40_safe",
    "C55_rectangular_undefined",
    "C55_square_undefined",
    "C55_orders_undefined",
    "C55_undefined_reachable",
    "C55_pairs",
    "C55_square",
    "C55_square35",
    "C55_rectangular",
    "C55_columns_refuted",
    "C55_redundant",
    "C55_ratio",
    "C55_ratio_refuted",
    "C55_pairs_refuted",
    "C55_square_refuted",
    "C55_E1_refuted",
    "C55_negative_count_refuted",
    "C55_mf34_refuted"
   ],
   "note": ""
  },
  {
   "property": "C51",
   "status": "proved",
   "theorems": [
    "C51_yield_counts",
    "C51_product_numbers",
    "C51_decay_parts",
    "C51_mf8_454",
    "C51_mf8_459",
    "C51_mf8_457",
    "C51_mf8_454_safe",
    "C51_mf8_459_safe",
    "C51_mf8_457_safe",
    "C51_undefined_reachable_454",
    "C51_undefined_reachable_457",
    "C51_yield",
    "C51_yield_accepts",
    "C51_yields",
    "C51_energies",
    "C51_energies_accepts",
    "C51_modes",
    "C51_modes_accepts",
    "C51_modes_empty_refuted",
    "C51_stable",
    "C51_stable_refuted",
    "C51_discrete4",
    "C51_discrete6",
    "C51_discrete12",
    "C51_discrete_defined",
    "C51_spectrum_discrete",
    "C51_spectrum_continuous",
    "C51_spectrum_both",
    "C51_spectrum_refuted",
    "C51_energies_refuted",
    "C51_nst_ignored"
   ],
   "note": ""
  },
  {
   "property": "C50",
   "status": "proved",
   "theorems": [
    "C50_atoms",
    "C50_atoms_read",
    "C50_constants_single",
    "C50_function_single",
    "C50_functions",
    "C50_temperature",
    "C50_mf7_2",
    "C50_mf7_4",
    "C50_mf7_451",
    "C50_mf7_4_safe",
    "C50_mf7_451_safe",
    "C50_undefined_reachable_4",
    "C50_undefined_reachable_451",
    "C50_coherent",
    "C50_coherent_accepts",
    "C50_coherent_short_refuted",
    "C50_coherent_long_refuted",
    "C50_coherent_none_refuted",
    "C50_coherent_single",
    "C50_incoherent",
    "C50_function",
    "C50_function_accepts",
    "C50_function_sizes",
    "C50_function_refuted",
    "C50_constants",
    "C50_constants_accepts",
    "C50_constants_read",
    "C50_constants_refuted",
    "C50_thermal",
    "C50_thermal_refuted",
    "C50_lasym_refuted",
    "C50_element",
    "C50_element_accepts",
    "C50_element_refuted",
    "C50_elements"
   ],
   "note": ""
  },
  {
   "property": "C46",
   "status": "proved",
   "theorems": [
    "C46_breit_wigner",
    "C46_mf2_151",
    "C46_mf2_152",
    "C46_mf2_151_safe",
    "C46_mf2_152_safe",
    "C46_columns",
    "C46_lvalue",
    "C46_lvalue_accepts",
    "C46_lvalue_refused",
    "C46_bw_columns",
    "C46_rm_columns",
    "C46_lvalue_columns",
    "C46_resolved",
    "C46_independent",
    "C46_dependent",
    "C46_widths",
    "C46_width_group",
    "C46_width_group_differ",
    "C46_widths_parts",
    "C46_pairs",
    "C46_channels",
    "C46_parameters",
    "C46_backgrounds",
    "C46_group",
    "C46_group_refused",
    "C46_first_at",
    "C46_spin",
    "C46_spin_undefined",
    "C46_radius",
    "C46_range_options",
    "C46_isotopes",
    "C46_isotopes_kept",
    "C46_152_values",
    "C46_152_infinite",
    "C46_152_accepts",
    "C46_mat152_refuted",
    "C46_152_reactions_refuted",
    "C46_background_count_refuted",
    "C46_no_resonances_refuted",
    "C46_dependent_count_refuted",
    "C46_tables_refuted",
    "C46_undefined_reachable_152",
    "C46_undefined_reachable_151",
    "C46_lfw_refuted"
   ],
   "note": ""
  },
  {
   "property": "C56",
   "status": "proved",
   "theorems": [
    "C56_radii",
    "C56_radii_refuted",
    "C56_mf32_151",
    "C56_mf32_151_lines",
    "C56_mf32_151_local",
    "C56_mf32_151_safe",
    "C56_limited_lvalue",
    "C56_limited_lvalue_size_refuted",
    "C56_limited",
    "C56_bw_uncertainties",
    "C56_rm_uncertainties",
    "C56_uncertainties_accept",
    "C56_unres_lvalue",
    "C56_short",
    "C56_pairs",
    "C56_short_parameters",
    "C56_parameters12",
    "C56_parameters12_size_refuted",
    "C56_triangle",
    "C56_correlations",
    "C56_three_digits_refuted",
    "C56_minus_one_refuted",
    "C56_order_refuted",
    "C56_line_counter",
    "C56_range",
    "C56_rml_radius_uncertainty_refuted",
    "C56_unresolved_formalism_refuted",
    "C56_from_ranges"
   ],
   "note": ""
  },
  {
   "property": "C57",
   "status": "proved",
   "theorems": [
    "C57_file1",
    "C57_file2",
    "C57_file3",
    "C57_file4",
    "C57_file7",
    "C57_file8",
    "C57_file9",
    "C57_file33",
    "C57_read_file1",
    "C57_read_files2to8",
    "C57_read_files9to40",
    "C57_ignored",
    "C57_refuted_stable",
    "C57_rounded"
   ],
   "note": ""
  },
  {
   "property": "C58",
   "status": "proved",
   "theorems": [
    "C58_file2_read",
    "C58_file2_print",
    "C58_file32_read",
    "C58_file32_second_read",
    "C58_file32_print",
    "C58_file32_second_print",
    "C58_covariances_read",
    "C58_covariances_print",
    "C58_angular"
   ],
   "note": ""
  },
  {
   "property": "C59",
   "status": "proved",
   "theorems": [
    "C59_breit_wigner",
    "C59_reich_moore",
    "C59_independent",
    "C59_limited",
    "C59_compact",
    "C59_short",
    "C59_unresolved",
    "C59_transitions",
    "C59_fission_products"
   ],
   "note": ""
  },
  {
   "property": "C60",
   "status": "proved",
   "theorems": [
    "C60_product9",
    "C60_product10",
    "C60_partial12",
    "C60_partial13",
    "C60_total12",
    "C60_total13",
    "C60_energy_transfer",
    "C60_effective_temperature5",
    "C60_parameter5",
    "C60_distribution_function5",
    "C60_tabulated_multiplicity",
    "C60_scattering_radius",
    "C60_probability5",
    "C60_outgoing5",
    "C60_madland_nix",
    "C60_tabulated4",
    "C60_energy_distribution7",
    "C60_continuous_spectrum",
    "C60_discrete_photon",
    "C60_particle",
    "C60_multiplicity6",
    "C60_multiplicity26",
    "C60_energy_release",
    "C60_table_exactly",
    "C60_one_region",
    "C60_angular4",
    "C60_angular14",
    "C60_angular_base_refuted",
    "C60_spectrum5",
    "C60_angular7",
    "C60_laboratory7",
    "C60_two_body",
    "C60_charged",
    "C60_charged_flag",
    "C60_continuum",
    "C60_continuum_mixed",
    "C60_continuum_empty_refuted",
    "C60_continuum26",
    "C60_decay_constants",
    "C60_sequence_exactly",
    "C60_lists",
    "C60_list_records",
    "C60_phase_space",
    "C60_file3",
    "C60_file3_one",
    "C60_file23",
    "C60_file27",
    "C60_Z27_refuted",
    "C60_list_heads",
    "C60_list_zeros",
    "C60_series_heads"
   ],
   "note": ""
  },
  {
   "property": "C61",
   "status": "proved",
   "theorems": [
    "C61_control_exactly",
    "C61_list_exactly",
    "C61_tab2_exactly",
    "C61_tab1_exactly",
    "C61_text_exactly",
    "C61_directory_exactly",
    "C61_not_equal",
    "C61_equivalence",
    "C61_identical_control",
    "C61_identical_list",
    "C61_identical_tab2",
    "C61_identical_tab1",
    "C61_minus_zero_refuted",
    "C61_read_doubles",
    "C61_read_back_control",
    "C61_read_back_list",
    "C61_read_back_tab1",
    "C61_read_back_text"
   ],
   "note": ""
  },
  {
   "property": "C62",
   "status": "proved",
   "theorems": [
    "C62_accepted",
    "C62_agree",
    "C62_printed",
    "C62_library_accepted",
    "C62_library_agree",
    "C62_library_printed",
    "C62_mixed_refuted",
    "C62_head_refuted",
    "C62_mend_refuted",
    "C62_send_refuted",
    "C62_missing_refuted"
   ],
   "note": ""
  },
  {
   "property": "C63",
   "status": "proved",
   "theorems": [
    "C63_thermal_point",
    "C63_thermal_point_read",
    "C63_polynomial",
    "C63_polynomial_refused",
    "C63_polynomial_read",
    "C63_tables",
    "C63_section",
    "C63_thermal_point_section",
    "C63_polynomial_section",
    "C63_order_zero_refuted",
    "C63_empty_refuted"
   ],
   "note": ""
  },
  {
   "property": "C64",
   "status": "proved",
   "theorems": [
    "C64_tabulated",
    "C64_tabulated_accepted",
    "C64_tabulated_refused",
    "C64_tabulated_read",
    "C64_thermal",
    "C64_thermal_cosines",
    "C64_thermal_kind",
    "C64_thermal_refuted"
   ],
   "note": ""
  },
  {
   "property": "C65",
   "status": "proved",
   "theorems": [
    "C65_exactly",
    "C65_survives",
    "C65_complete",
    "C65_lumped_refuted",
    "C65_unnamed_refuted",
    "C65_makable",
    "C65_survives_only",
    "C65_total_refuted",
    "C65_kinds_refuted",
    "C65_discrete_photons",
    "C65_compact",
    "C65_compact_printed",
    "C65_blocks",
    "C65_block34",
    "C65_block34_refuted",
    "C65_makable_152",
    "C65_makable_451",
    "C65_unnamed_451_refuted",
    "C65_unnamed_152_refuted"
   ],
   "note": ""
  },
  {
   "property": "C66",
   "status": "proved",
   "theorems": [
    "C66_material",
    "C66_file",
    "C66_tape",
    "C66_any_tape",
    "C66_indexed",
    "C66_same_as_reading",
    "C66_from_file",
    "C66_empty_material_refuted"
   ],
   "note": ""
  },
  {
   "property": "C67",
   "status": "proved",
   "theorems": [
    "C67_read",
    "C67_constructed",
    "C67_printed",
    "C67_fissile",
    "C67_stable_refuted"
   ],
   "note": ""
  },
  {
   "property": "C68",
   "status": "proved",
   "theorems": [
    "C68_item",
    "C68_item_refuted",
    "C68_long_refuted",
    "C68_slice",
    "C68_endless_refuted",
    "C68_common_slices",
    "C68_sequence",
    "C68_front_refuted",
    "C68_copy",
    "C68_copy_refuted"
   ],
   "note": ""
  },
  {
   "property": "C69",
   "status": "proved",
   "theorems": [
    "C69_histories",
    "C69_whole",
    "C69_insert_existing",
    "C69_last_put",
    "C69_unwritten",
    "C69_tapes"
   ],
   "note": ""
  },
  {
   "property": "C70",
   "status": "proved",
   "theorems": [
    "C70_file",
    "C70_material",
    "C70_tape",
    "C70_edited",
    "C70_empty_refuted",
    "C70_tape_number_refuted"
   ],
   "note": ""
  },
  {
   "property": "C71",
   "status": "proved",
   "theorems": [
    "C71_section_parse_undefined",
    "C71_section_parse",
    "C71_file_parse",
    "C71_file_unknown",
    "C71_material_parse",
    "C71_material",
    "C71_section_string",
    "C71_file_string",
    "C71_material_string",
    "C71_to_file",
    "C71_to_file_fails",
    "C71_to_file_refuted",
    "C71_truncated_refuted"
   ],
   "note": ""
  },
  {
   "property": "C72",
   "status": "proved",
   "theorems": [
    "C72_step",
    "C72_undefined",
    "C72_histories",
    "C72_determined",
    "C72_materials"
   ],
   "note": ""
  },
  {
   "property": "C73",
   "status": "proved",
   "theorems": [
    "C73_section",
    "C73_read_section",
    "C73_file",
    "C73_material",
    "C73_tape",
    "C73_once"
   ],
   "note": ""
  }
 ]
}