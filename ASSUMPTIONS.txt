What Print Assumptions lists for each theorem of MANIFEST.json (written by tools/assumptions.py).

PropParts.C01_head_za: Closed under the global context
PropParts.C01_head_made: Closed under the global context
PropRecords.C01_cont_round_trip: Closed under the global context
PropRecords.C01_cont_round_trip_rounded: Closed under the global context
PropRecords.C02_list_round_trip: Closed under the global context
PropRecords.C02_list_round_trip_rounded: Closed under the global context
PropRecords.C03_tab1_round_trip: Closed under the global context
PropRecords.C03_tab1_round_trip_rounded: Closed under the global context
PropRecords.C04_tab2_round_trip: Closed under the global context
PropRecords.C04_tab2_round_trip_rounded: Closed under the global context
PropRecords.C05_text_round_trip: Closed under the global context
PropRecords.C05_tpid_round_trip: Closed under the global context
PropRecords.C06_dir_round_trip: Closed under the global context
PropRecords.C07_intg_round_trip: Closed under the global context
PropRecords.C07_intg_capacity: Closed under the global context
PropLayout.C08_section: Closed under the global context
PropLayout.C08_printed_tape: Closed under the global context
PropLayout.C08_printed_material: Closed under the global context
PropLayout.C08_printed_file: Closed under the global context
PropRecords2.C08_cont_layout: Closed under the global context
PropRecords2.C08_list_layout: Closed under the global context
PropRecords2.C08_tab2_layout: Closed under the global context
PropRecords2.C08_tab1_layout: Closed under the global context
PropRecords2.C08_text_layout: Closed under the global context
PropRecords2.C08_tpid_layout: Closed under the global context
PropRecords2.C08_dir_layout: Closed under the global context
PropRecords2.C08_intg_layout: Closed under the global context
PropRecords2.C08_structure_layout: Closed under the global context
PropCut2.C09_typed_file: Closed under the global context
PropCut2.C09_typed_material: Closed under the global context
PropCut2.C09_typed_tape: Closed under the global context
PropRecords2.C09_record_reads_consume_own_lines: Closed under the global context
PropRecords2.C09_sequence_reads_consume_own_lines: Closed under the global context
PropRecords2.C09_lines_consumed_is_NC: Closed under the global context
PropTrunc.C09_sections: Closed under the global context
PropRecords2.C10_parsed_tables_are_consistent: Closed under the global context
PropRecords2.C11_regions_cover_the_table: Closed under the global context
PropRegions.C11_region: Closed under the global context
PropRegions.C11_defined: Closed under the global context
PropRegions.C11_empty_region_refuted: Closed under the global context
PropRecords3.C12_list_negative_count: Closed under the global context
PropRecords3.C12_table_counts: Closed under the global context
PropRecords3.C12_last_boundary_mismatch: Closed under the global context
PropRecords3.C12_unsorted_boundaries: Closed under the global context
PropRecords3.C12_unsorted_x: Closed under the global context
PropRecords3.C13_list_junk: Closed under the global context
PropRecords3.C13_boundary_junk: Closed under the global context
PropRecords3.C13_pairs_junk: Closed under the global context
PropRecords3.C14_only_std_exception_escapes: Closed under the global context
PropRecords3.C14_sequences: Closed under the global context
PropRecords3.C14_intg_truncated_refuted: Closed under the global context
PropRecords3.C14_intg_complete_line: Closed under the global context
PropRecords3.C15_at_most_one_kind: Closed under the global context
PropRecords3.C15_constructors: Closed under the global context
PropRecords3.C15_end_records_round_trip: Closed under the global context
PropRecords3.C15_head_round_trip: Closed under the global context
PropFields.C16_real_fields: Closed under the global context
PropFields.C16_nearest: Closed under the global context
PropFields.C16_printed_decimal: Closed under the global context
PropRecords3.C16_print_read_print_stable: Closed under the global context
PropRecords3.C16_short_decimals_survive: Closed under the global context
PropRecords3.C16_order_preserved: Closed under the global context
PropRecords3.C16_largest_double_refuted: Closed under the global context
PropFields.C17_integer_fields: Closed under the global context
PropFields.C17_malformed: Closed under the global context
PropRecords3.C17_integer_columns: Closed under the global context
PropTree2.C18_tape: Closed under the global context
PropTree2.C18_file: Closed under the global context
PropTree2.C18_material: Closed under the global context
PropTree.C19_lookups: Closed under the global context
PropEdit2.C20_histories: Closed under the global context
PropEdit2.C20_last_put_wins: Closed under the global context
PropEdit2.C20_insert_existing: Closed under the global context
PropEdit.C21_ordered: Closed under the global context
PropEdit.C21_material_numbers: Closed under the global context
PropEdit.C21_file_content: Closed under the global context
PropEdit.C21_material_content: Closed under the global context
PropEdit.C21_tape_content: Closed under the global context
PropEdit2.C22_histories: Closed under the global context
PropEdit2.C22_every_tape_shows: Closed under the global context
PropEdit2.C23_file_edits: Closed under the global context
PropEdit2.C23_insert_file: Closed under the global context
PropEdit2.C23_section_edits: Closed under the global context
PropEdit2.C23_empty_file_refuted: Closed under the global context
PropClean.C24_clean: Closed under the global context
PropClean.C24_idempotent: Closed under the global context
PropClean.C24_printed_unchanged: Closed under the global context
PropClean.C24_tape: Closed under the global context
PropClean.C25_failed_clean: Closed under the global context
PropClean.C25_succeeds_iff: Closed under the global context
PropClean.C25_content_lost_refuted: Closed under the global context
PropClean.C25_no_newline_refuted: Closed under the global context
PropSec451.C26_directory: Closed under the global context
PropSec451.C26_absent: Closed under the global context
PropSec451.C26_tape: Closed under the global context
PropSec451.C26_no_description_refuted: Closed under the global context
PropSec451.C26_not_first_refuted: Closed under the global context
PropSec451.C27_modification_numbers: Closed under the global context
PropSec451.C27_others_untouched: Closed under the global context
PropSec451.C27_failure: Closed under the global context
PropSec451.C27_idempotent: Closed under the global context
PropSec451.C27_unordered_refuted: Closed under the global context
PropSec451.C27_undefined: Closed under the global context
PropRefuted.C28_mixed_file_refuted: Closed under the global context
PropRefuted.C28_mixed_section_refuted: Closed under the global context
PropTree.C28_no_tend: Closed under the global context
PropTree.C28_duplicates: Closed under the global context
PropTree.C28_unterminated_section: Closed under the global context
PropTree2.C28_missing_send_refuted: Closed under the global context
PropTree2.C28_lone_head_refuted: Closed under the global context
PropTree.C29_only_sections_matter: Closed under the global context
PropTree.C29_redundant_end_records: Closed under the global context
PropClasses.C30_library: Closed under the global context
PropSec451.C30_section: Closed under the global context
PropTyped2.C30_file: Closed under the global context
PropTyped2.C30_material: Closed under the global context
PropClasses.C31_classes: Closed under the global context
PropClasses.C31_library: Closed under the global context
PropTyped.C31_round_trip: Closed under the global context
PropTyped.C31_any_order: Closed under the global context
PropTyped.C31_duplicates: Closed under the global context
PropTyped.C31_read_consistent: Closed under the global context
PropTyped.C31_make: Closed under the global context
PropTyped.C31_lookups: Closed under the global context
PropTyped.C31_print_order: Closed under the global context
PropClasses.C32_library_material: Closed under the global context
PropClasses.C32_library_tape: Closed under the global context
PropTyped.C32_material_round_trip: Closed under the global context
PropTyped.C32_any_order: Closed under the global context
PropTyped.C32_duplicates: Closed under the global context
PropTyped.C32_unknown_file: Closed under the global context
PropTyped.C32_read_consistent: Closed under the global context
PropTyped.C32_tape_round_trip: Closed under the global context
PropTyped.C32_tape_exact: Closed under the global context
PropTyped2.C32_lookups: Closed under the global context
PropTyped2.C32_tape_lookups: Closed under the global context
PropTyped2.C32_tape_not_empty: Closed under the global context
PropSkip.C33_mf8_skipped: Closed under the global context
PropTyped2.C33_mf30_refuted: Closed under the global context
PropTyped2.C33_mf30_dropped: Closed under the global context
PropTyped2.C33_mf8_dropped: Closed under the global context
PropTyped2.C33_empty_file_refuted: Closed under the global context
PropTyped2.C34_number_refuted: Closed under the global context
PropTyped2.C34_text: Closed under the global context
PropRecords3.C35_tab1_constructor_exact: Closed under the global context
PropRecords3.C35_wraparound_refuted: Closed under the global context
PropRecords3.C35_empty_boundaries_refuted: Closed under the global context
PropRefuted.C35_sequence_wraparound_refuted: Closed under the global context
PropRefuted.C35_negative_boundary_refuted: Closed under the global context
PropRefuted.C35_flag_wraparound_refuted: Closed under the global context
PropSec451.C36_section: Closed under the global context
PropSec451.C36_nc: Closed under the global context
PropSec451.C36_description: Closed under the global context
PropSec451.C36_constructor: Closed under the global context
PropSec451.C36_padding: Closed under the global context
PropSec451.C36_long_line_refuted: Closed under the global context
PropSec1.C37_mt452: Closed under the global context
PropSec1.C37_mt456: Closed under the global context
PropSec1.C37_mt455: Closed under the global context
PropSec1.C37_LNU_rejected: Closed under the global context
PropSec1.C37_455_flags_rejected: Closed under the global context
PropSec1.C37_flags_kept: Closed under the global context
PropSec1.C37_decay_constants: Closed under the global context
PropSec1.C38_mf3: Closed under the global context
PropSec1.C38_mf23: Closed under the global context
PropSec1.C38_mf27: Closed under the global context
PropSec1.C38_NC: Closed under the global context
PropCarry.C39_records: Closed under the global context
PropClasses.C39_library: Closed under the global context
PropSec1.C39_head_checked: Closed under the global context
PropSec1.C39_constructor_checked: Closed under the global context
PropSec1.C39_455_refuted: Closed under the global context
PropSec1.C39_others_checked: Closed under the global context
PropSec1.C40_closed_by_SEND: Closed under the global context
PropSec1.C40_not_closed: Closed under the global context
PropCut.C41_tape: Closed under the global context
PropCut.C41_tape_lines: Closed under the global context
PropCut2.C41_file: Closed under the global context
PropCut2.C41_typed_tape: Closed under the global context
PropCut2.C41_material: Closed under the global context
PropCut2.C41_file_rejected: Closed under the global context
PropCut2.C41_material_rejected: Closed under the global context
PropRecords3.C41_truncated_list: Closed under the global context
PropRecords3.C41_truncated_tab2: Closed under the global context
PropRecords3.C41_truncated_tab1: Closed under the global context
PropRecords3.C41_empty_text: Closed under the global context
PropTrunc.C41_section: Closed under the global context
PropTrunc.C41_parse: Closed under the global context
PropTrunc.C41_rejected: Closed under the global context
PropRecords3.C42_cont_columns: Closed under the global context
PropRecords3.C42_list_columns: Closed under the global context
PropRecords3.C42_tab2_columns: Closed under the global context
PropRecords3.C42_tab1_columns: Closed under the global context
PropRecords3.C42_dir_text_columns: Closed under the global context
PropCols.C74_records: Closed under the global context
PropCols.C74_section: Closed under the global context
PropCols.C74_parse: Closed under the global context
PropCols.C74_file: Closed under the global context
PropCols.C74_material: Closed under the global context
PropCols.C74_tape: Closed under the global context
PropCols.C74_lines: Closed under the global context
PropCols.C74_trimmed: Closed under the global context
PropPad.C75_records: Closed under the global context
PropPad.C75_intg: Closed under the global context
PropPad.C75_section: Closed under the global context
PropPad.C75_parse: Closed under the global context
PropPad.C75_file: Closed under the global context
PropPad.C75_material: Closed under the global context
PropPad.C75_tape: Closed under the global context
PropPad.C75_clean: Closed under the global context
PropPad.C75_refuted: Closed under the global context
PropPadSend.C75_cleaned_material: Closed under the global context
PropPadSend.C75_cleaned_tape: Closed under the global context
PropPadTree.C75_clean_file: Closed under the global context
PropPadTree.C75_clean_material: Closed under the global context
PropPadTree.C75_clean_tape: Closed under the global context
PropPadTree.C75_clean_refuted: Closed under the global context
PropOrder.C76_file_determined: Closed under the global context
PropOrder.C76_material_determined: Closed under the global context
PropOrder.C76_tape_determined: Closed under the global context
PropOrder.C76_edits_commute: Closed under the global context
PropOrder.C76_sections_any_order: Closed under the global context
PropOrder.C76_materials_any_order: Closed under the global context
PropOrder.C76_histories: Closed under the global context
PropOrder.C76_inserted_any_order: Closed under the global context
PropOrder.C76_order_matters_refuted: Closed under the global context
PropTree.C43_accepted_tapes: Closed under the global context
PropTree.C43_otherwise_rejected: Closed under the global context
PropSec1.C45_mt458: Closed under the global context
PropSec1.C45_mt460: Closed under the global context
PropSec1.C45_458_tables: Closed under the global context
PropClasses.C44_library: Closed under the global context
PropTyped2.C44_missing_tend_refuted: Closed under the global context
PropTyped3.C44_file_ends: Closed under the global context
PropTyped3.C44_material_ends: Closed under the global context
PropTyped3.C44_mf8_refuted: Closed under the global context
PropSec9.C52_mf9: Closed under the global context
PropSec9.C52_mf10: Closed under the global context
PropSec9.C52_lookup: Closed under the global context
PropParts.C53_partial15: Closed under the global context
PropParts.C53_ES_truncated_refuted: Closed under the global context
PropParts.C53_isotropic_energies: Closed under the global context
PropParts.C53_energies: Closed under the global context
PropParts.C53_energies_tabulated: Closed under the global context
PropSec9.C53_mf12: Closed under the global context
PropSec9.C53_mf13: Closed under the global context
PropSec9.C53_mf14: Closed under the global context
PropSec9.C53_mf15: Closed under the global context
PropSec9.C53_mat14_refuted: Closed under the global context
PropSec9.C53_mf12_undefined: Closed under the global context
PropSec9.C53_mf12_defined: Closed under the global context
PropSec9.C53_mf12_safe: Closed under the global context
PropSec9.C53_mf12_undefined_reachable: Closed under the global context
PropSec9.C53_ragged_refuted: Closed under the global context
PropSec9.C53_ragged_undefined: Closed under the global context
PropSec9.C53_transitions_defined: Closed under the global context
PropSec9.C53_transitions: Closed under the global context
PropSec9.C53_transitions_conditional: Closed under the global context
PropSec9.C53_total_refuted: Closed under the global context
PropSec9.C53_mixed_photons_refuted: Closed under the global context
PropSec9.C53_EG_truncated_refuted: Closed under the global context
PropSec9.C53_photon_counts: Closed under the global context
PropSkip.C53_parse_undefined_reachable: Closed under the global context
PropSec28.C54_mf28: Closed under the global context
PropSec28.C54_mf28_safe: Closed under the global context
PropSec28.C54_mf28_undefined_reachable: Closed under the global context
PropSec28.C54_transitions: Closed under the global context
PropSec28.C54_no_transitions_refuted: Closed under the global context
PropSec28.C54_subshell: Closed under the global context
PropSec6.C54_mf26: Closed under the global context
PropSec6.C54_mf26_safe: Closed under the global context
PropSec6.C54_undefined_reachable: Closed under the global context
PropSec6.C54_product: Closed under the global context
PropSec4.C47_mf4: Closed under the global context
PropSec4.C47_flags: Closed under the global context
PropSec4.C47_getters: Closed under the global context
PropSec4.C47_mixed_ranges: Closed under the global context
PropSec4.C47_mixed: Closed under the global context
PropSec4.C48_mf5: Closed under the global context
PropSec4.C48_partial_ctor: Closed under the global context
PropSec4.C48_count: Closed under the global context
PropNamed.C49_lookup: Closed under the global context
PropParts.C49_kalbach: Closed under the global context
PropParts.C49_kalbach_accepts: Closed under the global context
PropSec6.C49_mf6: Closed under the global context
PropSec6.C49_mf6_safe: Closed under the global context
PropSec6.C49_undefined_reachable: Closed under the global context
PropSec6.C49_product: Closed under the global context
PropSec6.C49_legendre: Closed under the global context
PropSec6.C49_tabulated: Closed under the global context
PropSec6.C49_no_cosines_refuted: Closed under the global context
PropSec6.C49_amplitudes: Closed under the global context
PropSec6.C49_amplitudes_refuted: Closed under the global context
PropSec6.C49_legendre5: Closed under the global context
PropSec6.C49_law1_undefined: Closed under the global context
PropSec6.C49_no_coefficients: Closed under the global context
PropSec6.C49_no_energies_refuted: Closed under the global context
PropSec6.C49_elsewhere_refuted: Closed under the global context
PropParts.C55_E2_refuted: Closed under the global context
PropParts.C55_energies: Closed under the global context
PropSec33.C55_mf31: Closed under the global context
PropSec33.C55_mf33: Closed under the global context
PropSec33.C55_mf34: Closed under the global context
PropSec33.C55_mf35: Closed under the global context
PropSec33.C55_mf40: Closed under the global context
PropSec33.C55_mf34_fits: Closed under the global context
PropSec33.C55_mf31_safe: Closed under the global context
PropSec33.C55_mf33_safe: Closed under the global context
PropSec33.C55_mf34_safe: Closed under the global context
PropSec33.C55_mf35_safe: Closed under the global context
PropSec33.C55_mf40_safe: Closed under the global context
PropSec33.C55_rectangular_undefined: Closed under the global context
PropSec33.C55_square_undefined: Closed under the global context
PropSec33.C55_orders_undefined: Closed under the global context
PropSec33.C55_undefined_reachable: Closed under the global context
PropSec33.C55_pairs: Closed under the global context
PropSec33.C55_square: Closed under the global context
PropSec33.C55_square35: Closed under the global context
PropSec33.C55_rectangular: Closed under the global context
PropSec33.C55_columns_refuted: Closed under the global context
PropSec33.C55_redundant: Closed under the global context
PropSec33.C55_ratio: Closed under the global context
PropSec33.C55_ratio_refuted: Closed under the global context
PropSec33.C55_pairs_refuted: Closed under the global context
PropSec33.C55_square_refuted: Closed under the global context
PropSec33.C55_E1_refuted: Closed under the global context
PropSec33.C55_negative_count_refuted: Closed under the global context
PropSec33.C55_mf34_refuted: Closed under the global context
PropParts.C51_yield_counts: Closed under the global context
PropParts.C51_product_numbers: Closed under the global context
PropParts.C51_decay_parts: Closed under the global context
PropSec8.C51_mf8_454: Closed under the global context
PropSec8.C51_mf8_459: Closed under the global context
PropSec8.C51_mf8_457: Closed under the global context
PropSec8.C51_mf8_454_safe: Closed under the global context
PropSec8.C51_mf8_459_safe: Closed under the global context
PropSec8.C51_mf8_457_safe: Closed under the global context
PropSec8.C51_undefined_reachable_454: Closed under the global context
PropSec8.C51_undefined_reachable_457: Closed under the global context
PropSec8.C51_yield: Closed under the global context
PropSec8.C51_yield_accepts: Closed under the global context
PropSec8.C51_yields: Closed under the global context
PropSec8.C51_energies: Closed under the global context
PropSec8.C51_energies_accepts: Closed under the global context
PropSec8.C51_modes: Closed under the global context
PropSec8.C51_modes_accepts: Closed under the global context
PropSec8.C51_modes_empty_refuted: Closed under the global context
PropSec8.C51_stable: Closed under the global context
PropSec8.C51_stable_refuted: Closed under the global context
PropSec8.C51_discrete4: Closed under the global context
PropSec8.C51_discrete6: Closed under the global context
PropSec8.C51_discrete12: Closed under the global context
PropSec8.C51_discrete_defined: Closed under the global context
PropSec8.C51_spectrum_discrete: Closed under the global context
PropSec8.C51_spectrum_continuous: Closed under the global context
PropSec8.C51_spectrum_both: Closed under the global context
PropSec8.C51_spectrum_refuted: Closed under the global context
PropSec8.C51_energies_refuted: Closed under the global context
PropSec8.C51_nst_ignored: Closed under the global context
PropParts.C50_constants_single: Closed under the global context
PropParts.C50_function_single: Closed under the global context
PropParts.C50_functions: Closed under the global context
PropParts.C50_temperature: Closed under the global context
PropSec7.C50_mf7_2: Closed under the global context
PropSec7.C50_mf7_4: Closed under the global context
PropSec7.C50_mf7_451: Closed under the global context
PropSec7.C50_mf7_4_safe: Closed under the global context
PropSec7.C50_mf7_451_safe: Closed under the global context
PropSec7.C50_undefined_reachable_4: Closed under the global context
PropSec7.C50_undefined_reachable_451: Closed under the global context
PropSec7.C50_coherent: Closed under the global context
PropSec7.C50_coherent_accepts: Closed under the global context
PropSec7.C50_coherent_short_refuted: Closed under the global context
PropSec7.C50_coherent_long_refuted: Closed under the global context
PropSec7.C50_coherent_none_refuted: Closed under the global context
PropSec7.C50_coherent_single: Closed under the global context
PropSec7.C50_incoherent: Closed under the global context
PropSec7.C50_function: Closed under the global context
PropSec7.C50_function_accepts: Closed under the global context
PropSec7.C50_function_sizes: Closed under the global context
PropSec7.C50_function_refuted: Closed under the global context
PropSec7.C50_constants: Closed under the global context
PropSec7.C50_constants_accepts: Closed under the global context
PropSec7.C50_constants_read: Closed under the global context
PropSec7.C50_constants_refuted: Closed under the global context
PropSec7.C50_thermal: Closed under the global context
PropSec7.C50_thermal_refuted: Closed under the global context
PropSec7.C50_lasym_refuted: Closed under the global context
PropSec7.C50_element: Closed under the global context
PropSec7.C50_element_accepts: Closed under the global context
PropSec7.C50_element_refuted: Closed under the global context
PropSec7.C50_elements: Closed under the global context
PropParts.C46_breit_wigner: Closed under the global context
PropSec2.C46_mf2_151: Closed under the global context
PropSec2.C46_mf2_152: Closed under the global context
PropSec2.C46_mf2_151_safe: Closed under the global context
PropSec2.C46_mf2_152_safe: Closed under the global context
PropSec2.C46_columns: Closed under the global context
PropSec2.C46_lvalue: Closed under the global context
PropSec2.C46_lvalue_accepts: Closed under the global context
PropSec2.C46_lvalue_refused: Closed under the global context
PropSec2.C46_bw_columns: Closed under the global context
PropSec2.C46_rm_columns: Closed under the global context
PropSec2.C46_lvalue_columns: Closed under the global context
PropSec2.C46_resolved: Closed under the global context
PropSec2.C46_independent: Closed under the global context
PropSec2.C46_dependent: Closed under the global context
PropSec2.C46_widths: Closed under the global context
PropSec2.C46_width_group: Closed under the global context
PropSec2.C46_width_group_differ: Closed under the global context
PropSec2.C46_widths_parts: Closed under the global context
PropSec2.C46_pairs: Closed under the global context
PropSec2.C46_channels: Closed under the global context
PropSec2.C46_parameters: Closed under the global context
PropSec2.C46_backgrounds: Closed under the global context
PropSec2.C46_group: Closed under the global context
PropSec2.C46_group_refused: Closed under the global context
PropSec2.C46_first_at: Closed under the global context
PropSec2.C46_spin: Closed under the global context
PropSec2.C46_spin_undefined: Closed under the global context
PropSec2.C46_radius: Closed under the global context
PropSec2.C46_range_options: Closed under the global context
PropSec2.C46_isotopes: Closed under the global context
PropSec2.C46_isotopes_kept: Closed under the global context
PropSec2.C46_152_values: Closed under the global context
PropSec2.C46_152_infinite: Closed under the global context
PropSec2.C46_152_accepts: Closed under the global context
PropSec2.C46_mat152_refuted: Closed under the global context
PropSec2.C46_152_reactions_refuted: Closed under the global context
PropSec2.C46_background_count_refuted: Closed under the global context
PropSec2.C46_no_resonances_refuted: Closed under the global context
PropSec2.C46_dependent_count_refuted: Closed under the global context
PropSec2.C46_tables_refuted: Closed under the global context
PropSec2.C46_undefined_reachable_152: Closed under the global context
PropSec2.C46_undefined_reachable_151: Closed under the global context
PropSec2.C46_lfw_refuted: Closed under the global context
PropParts.C56_radii: Closed under the global context
PropParts.C56_radii_refuted: Closed under the global context
PropSec32.C56_mf32_151: Closed under the global context
PropSec32.C56_mf32_151_lines: Closed under the global context
PropSec32.C56_mf32_151_local: Closed under the global context
PropSec32.C56_mf32_151_safe: Closed under the global context
PropSec32.C56_limited_lvalue: Closed under the global context
PropSec32.C56_limited_lvalue_size_refuted: Closed under the global context
PropSec32.C56_limited: Closed under the global context
PropSec32.C56_bw_uncertainties: Closed under the global context
PropSec32.C56_rm_uncertainties: Closed under the global context
PropSec32.C56_uncertainties_accept: Closed under the global context
PropSec32.C56_unres_lvalue: Closed under the global context
PropSec32.C56_short: Closed under the global context
PropSec32.C56_pairs: Closed under the global context
PropSec32.C56_short_parameters: Closed under the global context
PropSec32.C56_parameters12: Closed under the global context
PropSec32.C56_parameters12_size_refuted: Closed under the global context
PropSec32.C56_triangle: Closed under the global context
PropSec32b.C56_correlations: Closed under the global context
PropSec32b.C56_three_digits_refuted: Closed under the global context
PropSec32b.C56_minus_one_refuted: Closed under the global context
PropSec32b.C56_order_refuted: Closed under the global context
PropSec32c.C56_line_counter: Closed under the global context
PropSec32c.C56_range: Closed under the global context
PropSec32c.C56_rml_radius_uncertainty_refuted: Closed under the global context
PropSec32c.C56_unresolved_formalism_refuted: Closed under the global context
PropSec32c.C56_from_ranges: Closed under the global context
PropHeads.C57_file1: Closed under the global context
PropHeads.C57_file2: Closed under the global context
PropHeads.C57_file3: Closed under the global context
PropHeads.C57_file4: Closed under the global context
PropHeads.C57_file7: Closed under the global context
PropHeads.C57_file8: Closed under the global context
PropHeads.C57_file9: Closed under the global context
PropHeads.C57_file33: Closed under the global context
PropInner.C57_read_file1: Closed under the global context
PropInner.C57_read_files2to8: Closed under the global context
PropInner.C57_read_files9to40: Closed under the global context
PropInner.C57_ignored: Closed under the global context
PropInner.C57_refuted_stable: Closed under the global context
PropNamed.C57_rounded: Closed under the global context
PropInner.C58_file2_read: Closed under the global context
PropInner.C58_file2_print: Closed under the global context
PropInner.C58_file32_read: Closed under the global context
PropInner.C58_file32_second_read: Closed under the global context
PropInner.C58_file32_print: Closed under the global context
PropInner.C58_file32_second_print: Closed under the global context
PropInner.C58_covariances_read: Closed under the global context
PropInner.C58_covariances_print: Closed under the global context
PropInner.C58_angular: Closed under the global context
PropViews.C59_breit_wigner: Closed under the global context
PropViews.C59_reich_moore: Closed under the global context
PropViews.C59_independent: Closed under the global context
PropViews.C59_limited: Closed under the global context
PropViews.C59_compact: Closed under the global context
PropViews.C59_short: Closed under the global context
PropViews.C59_unresolved: Closed under the global context
PropViews.C59_transitions: Closed under the global context
PropViews.C59_fission_products: Closed under the global context
PropNamed.C60_product9: Closed under the global context
PropNamed.C60_product10: Closed under the global context
PropNamed.C60_partial12: Closed under the global context
PropNamed.C60_partial13: Closed under the global context
PropNamed.C60_total12: Closed under the global context
PropNamed.C60_total13: Closed under the global context
PropNamed.C60_energy_transfer: Closed under the global context
PropNamed.C60_effective_temperature5: Closed under the global context
PropNamed.C60_parameter5: Closed under the global context
PropNamed.C60_distribution_function5: Closed under the global context
PropNamed.C60_tabulated_multiplicity: Closed under the global context
PropNamed.C60_scattering_radius: Closed under the global context
PropNamed.C60_probability5: Closed under the global context
PropNamed.C60_outgoing5: Closed under the global context
PropNamed.C60_madland_nix: Closed under the global context
PropNamed.C60_tabulated4: Closed under the global context
PropNamed.C60_energy_distribution7: Closed under the global context
PropNamed.C60_continuous_spectrum: Closed under the global context
PropNamed.C60_discrete_photon: Closed under the global context
PropNamed.C60_particle: Closed under the global context
PropNamed.C60_multiplicity6: Closed under the global context
PropNamed.C60_multiplicity26: Closed under the global context
PropNamed.C60_energy_release: Closed under the global context
PropNamed.C60_table_exactly: Closed under the global context
PropNamed.C60_one_region: Closed under the global context
PropNamed.C60_angular4: Closed under the global context
PropNamed.C60_angular14: Closed under the global context
PropNamed.C60_angular_base_refuted: Closed under the global context
PropNamed.C60_spectrum5: Closed under the global context
PropNamed.C60_angular7: Closed under the global context
PropNamed.C60_laboratory7: Closed under the global context
PropNamed.C60_two_body: Closed under the global context
PropNamed.C60_charged: Closed under the global context
PropNamed.C60_charged_flag: Closed under the global context
PropNamed.C60_continuum: Closed under the global context
PropNamed.C60_continuum_mixed: Closed under the global context
PropNamed.C60_continuum_empty_refuted: Closed under the global context
PropNamed.C60_continuum26: Closed under the global context
PropNamed.C60_decay_constants: Closed under the global context
PropNamed.C60_sequence_exactly: Closed under the global context
PropNamed.C60_lists: Closed under the global context
PropNamed.C60_list_records: Closed under the global context
PropNamed.C60_phase_space: Closed under the global context
PropNamed.C60_file3: Closed under the global context
PropNamed.C60_file3_one: Closed under the global context
PropNamed.C60_file23: Closed under the global context
PropNamed.C60_file27: Closed under the global context
PropNamed.C60_Z27_refuted: Closed under the global context
PropOpens.C60_list_heads: Closed under the global context
PropOpens.C60_list_zeros: Closed under the global context
PropOpens.C60_series_heads: Closed under the global context
PropEqual.C61_control_exactly: Closed under the global context
PropEqual.C61_list_exactly: Closed under the global context
PropEqual.C61_tab2_exactly: Closed under the global context
PropEqual.C61_tab1_exactly: Closed under the global context
PropEqual.C61_text_exactly: Closed under the global context
PropEqual.C61_directory_exactly: Closed under the global context
PropEqual.C61_not_equal: Closed under the global context
PropEqual.C61_equivalence: Closed under the global context
PropEqual.C61_identical_control: Closed under the global context
PropEqual.C61_identical_list: Closed under the global context
PropEqual.C61_identical_tab2: Closed under the global context
PropEqual.C61_identical_tab1: Closed under the global context
PropEqual.C61_minus_zero_refuted: Closed under the global context
PropEqual.C61_read_doubles: Closed under the global context
PropEqual.C61_read_back_control: Closed under the global context
PropEqual.C61_read_back_list: Closed under the global context
PropEqual.C61_read_back_tab1: Closed under the global context
PropEqual.C61_read_back_text: Closed under the global context
PropAgree.C62_accepted: Closed under the global context
PropAgree.C62_agree: Closed under the global context
PropAgree.C62_printed: Closed under the global context
PropAgree2.C62_library_accepted: Closed under the global context
PropAgree2.C62_library_agree: Closed under the global context
PropAgree2.C62_library_printed: Closed under the global context
PropAgree2.C62_mixed_refuted: Closed under the global context
PropAgree2.C62_head_refuted: Closed under the global context
PropAgree2.C62_mend_refuted: Closed under the global context
PropAgree2.C62_send_refuted: Closed under the global context
PropAgree2.C62_missing_refuted: Closed under the global context
PropFission.C63_thermal_point: Closed under the global context
PropFission.C63_thermal_point_read: Closed under the global context
PropFission.C63_polynomial: Closed under the global context
PropFission.C63_polynomial_refused: Closed under the global context
PropFission.C63_polynomial_read: Closed under the global context
PropFission.C63_tables: Closed under the global context
PropFission.C63_section: Closed under the global context
PropFission.C63_thermal_point_section: Closed under the global context
PropFission.C63_polynomial_section: Closed under the global context
PropFission.C63_order_zero_refuted: Closed under the global context
PropFission.C63_empty_refuted: Closed under the global context
PropLaw1.C64_tabulated: Closed under the global context
PropLaw1.C64_tabulated_accepted: Closed under the global context
PropLaw1.C64_tabulated_refused: Closed under the global context
PropLaw1.C64_tabulated_read: Closed under the global context
PropLaw1.C64_thermal: Closed under the global context
PropLaw1.C64_thermal_cosines: Closed under the global context
PropLaw1.C64_thermal_kind: Closed under the global context
PropLaw1.C64_thermal_refuted: Closed under the global context
PropMake.C65_exactly: Closed under the global context
PropMake.C65_survives: Closed under the global context
PropMake.C65_complete: Closed under the global context
PropMake.C65_lumped_refuted: Closed under the global context
PropMake.C65_unnamed_refuted: Closed under the global context
PropMake.C65_makable: Closed under the global context
PropMake.C65_survives_only: Closed under the global context
PropMake.C65_total_refuted: Closed under the global context
PropMake.C65_kinds_refuted: Closed under the global context
PropMake.C65_discrete_photons: Closed under the global context
PropMake.C65_compact: Closed under the global context
PropMake.C65_compact_printed: Closed under the global context
PropMake.C65_blocks: Closed under the global context
PropMake.C65_block34: Closed under the global context
PropMake.C65_block34_refuted: Closed under the global context
PropMake2.C65_makable_152: Closed under the global context
PropMake2.C65_makable_451: Closed under the global context
PropMake2.C65_unnamed_451_refuted: Closed under the global context
PropMake2.C65_unnamed_152_refuted: Closed under the global context
PropParse.C66_material: Closed under the global context
PropParse.C66_file: Closed under the global context
PropParse.C66_tape: Closed under the global context
PropParse.C66_any_tape: Closed under the global context
PropParse.C66_indexed: Closed under the global context
PropParse.C66_same_as_reading: Closed under the global context
PropParse.C66_from_file: Closed under the global context
PropParse.C66_empty_material_refuted: Closed under the global context
PropDescr.C67_read: Closed under the global context
PropDescr.C67_constructed: Closed under the global context
PropDescr.C67_printed: Closed under the global context
PropDescr.C67_fissile: Closed under the global context
PropDescr.C67_stable_refuted: Closed under the global context
PropPy.C68_item: Closed under the global context
PropPy.C68_item_refuted: Closed under the global context
PropPy.C68_long_refuted: Closed under the global context
PropPy.C68_slice: Closed under the global context
PropPy.C68_endless_refuted: Closed under the global context
PropPy.C68_common_slices: Closed under the global context
PropPy.C68_sequence: Closed under the global context
PropPy.C68_front_refuted: Closed under the global context
PropPy.C68_copy: Closed under the global context
PropPy.C68_copy_refuted: Closed under the global context
PropTypedEdit.C69_histories: Closed under the global context
PropTypedEdit.C69_whole: Closed under the global context
PropTypedEdit.C69_insert_existing: Closed under the global context
PropTypedEdit.C69_last_put: Closed under the global context
PropTypedEdit.C69_unwritten: Closed under the global context
PropTypedEdit.C69_tapes: Closed under the global context
PropSave.C70_file: Closed under the global context
PropSave.C70_material: Closed under the global context
PropSave.C70_tape: Closed under the global context
PropSave.C70_edited: Closed under the global context
PropSave.C70_empty_refuted: Closed under the global context
PropSave.C70_tape_number_refuted: Closed under the global context
PropPyTree.C71_section_parse: Closed under the global context
PropPyTree.C71_file_parse: Closed under the global context
PropPyTree.C71_file_unknown: Closed under the global context
PropPyTree.C71_material_parse: Closed under the global context
PropPyTree.C71_material: Closed under the global context
PropPyTree.C71_section_string: Closed under the global context
PropPyTree.C71_file_string: Closed under the global context
PropPyTree.C71_material_string: Closed under the global context
PropPyTree.C71_to_file: Closed under the global context
PropPyTree.C71_to_file_fails: Closed under the global context
PropPyTree.C71_to_file_refuted: Closed under the global context
PropPyTree.C71_truncated_refuted: Closed under the global context
PropNested.C72_step: Closed under the global context
PropNested.C72_undefined: Closed under the global context
PropNested.C72_histories: Closed under the global context
PropNested.C72_determined: Closed under the global context
PropNested.C72_materials: Closed under the global context
PropRound.C73_section: Closed under the global context
PropRound.C73_read_section: Closed under the global context
PropRound.C73_file: Closed under the global context
PropRound.C73_material: Closed under the global context
PropRound.C73_tape: Closed under the global context
PropRound.C73_once: Closed under the global context
