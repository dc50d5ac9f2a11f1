{
 "claims": [
  {
   "property": "C01",
   "status": "proved",
   "theorems": [
    "C01_compose_then_decompose",
    "C01_compose_is_format",
    "C01_decompose_is_format",
    "C01_decompose_then_compose"
   ],
   "note": ""
  },
  {
   "property": "C02",
   "status": "proved",
   "theorems": [
    "C02_fine_mesh_refines_coarse"
   ],
   "note": ""
  },
  {
   "property": "C03",
   "status": "proved",
   "theorems": [
    "C03_values_keep_their_voxel",
    "C03_duplicate_energies_refuted"
   ],
   "note": "The exceptions named in the statement are proved as the _refuted theorems. Proved for pairwise different energies; with duplicate energies a whole bin is lost (refuted witness, real behaviour of the dictionary keyed by energy, weight_window.py 131-132)."
  },
  {
   "property": "C04",
   "status": "proved",
   "theorems": [
    "C04_ratio_is_max_neighbour_ratio",
    "C04_ratio_unique"
   ],
   "note": ""
  },
  {
   "property": "C05",
   "status": "proved",
   "theorems": [
    "C05_mitigation_bounds_every_ratio"
   ],
   "note": ""
  },
  {
   "property": "C06",
   "status": "proved",
   "theorems": [
    "C06_multiply_pointwise",
    "C06_multiply_composes",
    "C06_multiply_keeps_ratios",
    "C06_soften_pointwise",
    "C06_soften_composes",
    "C06_soften_powers_ratios",
    "C06_ratios_always_consistent",
    "C06_every_call_keeps_the_mesh"
   ],
   "note": ""
  },
  {
   "property": "C07",
   "status": "proved",
   "theorems": [
    "C07_C08_add_then_remove",
    "C07_documented_formula_iff",
    "C07_documented_formula_refuted"
   ],
   "note": "The exceptions named in the statement are proved as the _refuted theorems. Neutrons unchanged / second call rejected proved; the documented photon value is refuted: the code computes value*norm**soft (weight_window.py 350), equal to the documented (value*norm)**soft only for soft=1 or value=1 (C07_documented_formula_iff)."
  },
  {
   "property": "C08",
   "status": "proved",
   "theorems": [
    "C07_C08_add_then_remove",
    "C08_every_window_is_standard",
    "C08_remove_particle",
    "C08_grid_restored_refuted"
   ],
   "note": "The exceptions named in the statement are proved as the _refuted theorems. Values, ratios and saved file restored (proved); the exported grid keeps the removed particle's arrays (refuted)."
  },
  {
   "property": "C09",
   "status": "proved",
   "theorems": [
    "C09_gvr_scaled_flux"
   ],
   "note": ""
  },
  {
   "property": "C10",
   "status": "proved",
   "theorems": [
    "C10_saved_file_loads_back",
    "C10_count_above_99999_refuted",
    "C10_distinct_energies_kept_refuted"
   ],
   "note": "Round trip, 5-digit accuracy and byte-identical second save proved for all saveable windows (mesh counts < 100000). The limits named in the property are exhibited by the _refuted witnesses (count 100001 read back as 100000; energies equal to 5 digits merge)."
  },
  {
   "property": "C11",
   "status": "proved",
   "theorems": [
    "C11_truncated_file_hangs_refuted",
    "C11_loading_finishes_or_hangs"
   ],
   "note": "The exceptions named in the statement are proved as the _refuted theorems. Refuted: every saved file cut at any line after the header makes the loader loop forever (readline at EOF returns '' without end). Proved instead: on every text file the loader finishes within one iteration per line plus one per loop, or never."
  },
  {
   "property": "C12",
   "status": "proved",
   "theorems": [
    "C12_cylindrical_grid_cells",
    "C12_cylindrical_grid_shape"
   ],
   "note": ""
  },
  {
   "property": "C13",
   "status": "proved",
   "theorems": [
    "C13_windows_are_kept_and_genuine",
    "C13_no_loaded_window_is_lost",
    "C13_rounds_bound_is_harmless",
    "C13_operation_changes_one_name",
    "C13_new_name_is_fresh_for_its_source",
    "C13_looking_changes_nothing",
    "C13_session_never_crashes",
    "C13_empty_ends_the_session_refuted",
    "C13_typed_splitting_ratio_used_refuted",
    "C13_dotted_name_replaces_another_refuted",
    "C13_reopening_replaces_refuted",
    "C13_operation_as_typed",
    "C13_open_stores_under_the_stem",
    "C13_open_hidden_file"
   ],
   "note": "The exceptions named in the statement are proved as the _refuted theorems. Session model with abstract window operations; typed commands characterised. Refutations: 'empty' crashes, typed GVR ratio is not used, dotted names, re-opening."
  },
  {
   "property": "C14",
   "status": "proved",
   "theorems": [
    "C14_irradiation_file_round_trip",
    "C14_full_width_comment_glued_refuted",
    "C14_reading_unterminated_file_blocks_writing_refuted"
   ],
   "note": "Round trip proved for all files whose fields fit their columns; the limits named in the property are exhibited by the _refuted witnesses."
  },
  {
   "property": "C15",
   "status": "proved",
   "theorems": [
    "C15_reaction_file_round_trip",
    "C15_full_width_daughter_glued_refuted"
   ],
   "note": "Round trip proved under the width guard named in the property; over-wide field exhibited by a witness."
  },
  {
   "property": "C16",
   "status": "proved",
   "theorems": [
    "C16_rectangular_after_any_history",
    "C16_add_appends_to_every_irradiation",
    "C16_rejected_call_changes_nothing",
    "C16_remove_accepted_iff_in_range",
    "C16_add_then_remove_restores",
    "C16_files_read_are_rectangular"
   ],
   "note": ""
  },
  {
   "property": "C17",
   "status": "proved",
   "theorems": [
    "C17_selection_keeps_exactly_the_requested",
    "C17_report_with_repeated_daughters_refuted",
    "C17_lookup_returns_first_match"
   ],
   "note": "Selection and lookup proved; the report is exact for distinct daughters and wrong otherwise (witness), as the property says."
  },
  {
   "property": "C18",
   "status": "proved",
   "theorems": [
    "C18_plain_name_changes_every_parent",
    "C18_with_manager_changes_exactly_the_available",
    "C18_dictionary_means_its_first_value",
    "C18_dictionary_with_manager_refuted"
   ],
   "note": "The exceptions named in the statement are proved as the _refuted theorems. Proved except dictionary + library manager, where the code tests the raw argument (d1suned.py 652) and never translates (refuted for every such call)."
  },
  {
   "property": "C19",
   "status": "proved",
   "theorems": [
    "C19_available_zaid_is_kept",
    "C19_every_answer_is_documented",
    "C19_amount_is_conserved",
    "C19_element_is_kept",
    "C19_assigned_library_has_the_zaid",
    "C19_errors_are_justified",
    "C19_nothing_vanishes",
    "C19_nothing_vanishes_refuted",
    "C19_default_library_not_loaded_refuted",
    "C19_library_listing_is_exact",
    "C19_availability_is_exact",
    "C19_availability_in_all_codes",
    "C19_shipped_amount_within_tolerance"
   ],
   "note": "The exceptions named in the statement are proved as the _refuted theorems. Full characterisation of convertZaid (five documented answers, justified errors, amount, element and library). Refuted: a natural element missing from library and table is translated to nothing; a default library that is not loaded raises KeyError."
  },
  {
   "property": "C20",
   "status": "proved",
   "theorems": [
    "C20_name_then_number",
    "C20_number_then_name",
    "C20_formula_readers_agree",
    "C20_shipped_name_then_number",
    "C20_nobelium_becomes_niobium_refuted"
   ],
   "note": "The exceptions named in the statement are proved as the _refuted theorems. Round trips proved for any table in which symbol and number determine each other, and for every element of the shipped table but Z=102, whose symbol is Nb in Isotopes.txt (refutation)."
  },
  {
   "property": "C21",
   "status": "proved",
   "theorems": [
    "C21_rows_are_well_formed",
    "C21_abundances_are_fractions",
    "C21_abundances_add_up",
    "C21_all_but_argon_within_1e4",
    "C21_argon_is_off_by_more_than_1e4_refuted",
    "C21_symbols_are_unique"
   ],
   "note": "The exceptions named in the statement are proved as the _refuted theorems. Embedded table. Refuted as stated for argon (0.99985); proved with tolerance 1.5e-4. Symbol uniqueness fails for Z=41/102."
  },
  {
   "property": "C22",
   "status": "proved",
   "theorems": [
    "C22_every_zaid_becomes_its_block",
    "C22_shipped_table_is_good",
    "C22_mass_total_is_kept",
    "C22_atom_total_of_each_zaid",
    "C22_atom_total_with_the_shipped_table",
    "C22_sign_is_kept",
    "C22_element_and_library",
    "C22_errors_are_justified",
    "C22_lists_are_translated_one_by_one",
    "C22_untranslatable_zaid_is_lost_refuted",
    "C22_failure_is_not_atomic_refuted"
   ],
   "note": "The exceptions named in the statement are proved as the _refuted theorems. Mass totals exact, atom totals up to abundance sums (0.015 % with the shipped table), sign, element, library and errors proved for all submaterials whose zaids are translatable. Refuted: an untranslatable zaid disappears silently; a failing material translation is not atomic."
  },
  {
   "property": "C23",
   "status": "proved",
   "theorems": [
    "C23_each_nuclide_once_with_its_sum",
    "C23_total_is_kept",
    "C23_first_occurrence_order"
   ],
   "note": ""
  },
  {
   "property": "C24",
   "status": "proved",
   "theorems": [
    "C24_atom_to_mass",
    "C24_mass_to_atom",
    "C24_round_trip_from_atom",
    "C24_round_trip_from_mass",
    "C24_copy_and_inplace_agree",
    "C24_already_switched_is_untouched",
    "C24_not_normalised_refuted",
    "C24_inplace_returns_empty_submaterials_refuted"
   ],
   "note": "The exceptions named in the statement are proved as the _refuted theorems. Physical proportions, signs, normalisation and round trips proved. Refuted: an already switched card is not normalised; the list returned by an in-place switch holds empty submaterials."
  },
  {
   "property": "C25",
   "status": "proved",
   "theorems": [
    "C25_tad_and_density_are_physical",
    "C25_density_of_tad",
    "C25_tad_of_density",
    "C25_query_changes_the_material_refuted",
    "C25_natural_element_raises_refuted"
   ],
   "note": "The exceptions named in the statement are proved as the _refuted theorems. Inverse and physical formula proved for tabulated zaids. Refuted: both queries rewrite the material's fractions; natural elements raise KeyError."
  },
  {
   "property": "C26",
   "status": "proved",
   "theorems": [
    "C26_groups_have_the_requested_percentage",
    "C26_submaterials_in_order",
    "C26_list_is_translated",
    "C26_sources_unchanged_refuted"
   ],
   "note": "The exceptions named in the statement are proved as the _refuted theorems. Percentages, proportions and order proved; refuted: the source list is translated in place."
  },
  {
   "property": "C27",
   "status": "proved",
   "theorems": [
    "C27_lookup_agrees_with_the_list",
    "C27_operations",
    "C27_unique_names",
    "C27_duplicates_are_accepted_refuted"
   ],
   "note": "The exceptions named in the statement are proved as the _refuted theorems. Look-up and operations proved for every history; name uniqueness only for polite callers (refuted otherwise: append and extend accept duplicates)."
  },
  {
   "property": "C28",
   "status": "proved",
   "theorems": [
    "C28_merge_is_the_union",
    "C28_clash_is_reported",
    "C28_failed_merge_leaves_cells_refuted"
   ],
   "note": "The exceptions named in the statement are proved as the _refuted theorems. Cards are shared objects on a heap; numjuggler's parsed cards are the assumption (InpModel.v header)."
  },
  {
   "property": "C29",
   "status": "proved",
   "theorems": [
    "C29_every_number_is_shifted",
    "C29_distinct_numbers_stay_distinct",
    "C29_renum_all",
    "C29_keys_follow",
    "C29_references_resolve",
    "C29_data_keys_change_refuted"
   ],
   "note": "The exceptions named in the statement are proved as the _refuted theorems. Numbers and types of a card are those found by numjuggler's parser."
  },
  {
   "property": "C30",
   "status": "proved",
   "theorems": [
    "C30_extraction_is_the_closure",
    "C30_search_terminates",
    "C30_mutual_complement_diverges_refuted",
    "C30_renumbered_extraction_frame",
    "C30_renumbered_extraction_changes_source_refuted",
    "C30_extract_universe",
    "C30_remove_universe_text",
    "C30_remove_universe_without_equal_refuted"
   ],
   "note": "The exceptions named in the statement are proved as the _refuted theorems. The divergence is proved for every amount of fuel; termination for acyclic references."
  },
  {
   "property": "C31",
   "status": "proved",
   "theorems": [
    "C31_keys_denote_card_names",
    "C31_assignment_renames_the_card",
    "C31_card_under_two_keys_refuted"
   ],
   "note": "The exceptions named in the statement are proved as the _refuted theorems. Histories of any length; the printed number is the first value of the card."
  },
  {
   "property": "C32",
   "status": "proved",
   "theorems": [
    "C32_key_of_a_card",
    "C32_no_key",
    "C32_every_card_is_stored",
    "C32_duplicates_are_rejected",
    "C32_text_is_kept",
    "C32_successive_comments_refuted",
    "C32_final_comment_refuted"
   ],
   "note": "The exceptions named in the statement are proved as the _refuted theorems. The cards and their kinds are those of numjuggler's parser."
  },
  {
   "property": "C33",
   "status": "proved",
   "theorems": [
    "C33_letters",
    "C33_region_is_unique",
    "C33_add_surface",
    "C33_hash_cell",
    "C33_cells_union",
    "C33_union_of_two",
    "C33_union_replaces_the_cells",
    "C33_glued_geometry_refuted"
   ],
   "note": "The exceptions named in the statement are proved as the _refuted theorems. Regions are given a meaning (points and half-spaces) independent of the text edits; card(wrap=True) is taken to keep the words of a card."
  },
  {
   "property": "C34",
   "status": "proved",
   "theorems": [
    "C34_exactly_the_selected_cells",
    "C34_text_of_a_changed_cell",
    "C34_when_a_change_is_accepted",
    "C34_small_density_refused_refuted",
    "C34_void_by_void_refuted",
    "C34_cells_by_material"
   ],
   "note": "The exceptions named in the statement are proved as the _refuted theorems. Densities are exact numbers; the text of the card is that of numjuggler's template."
  },
  {
   "property": "C35",
   "status": "proved",
   "theorems": [
    "C35_tally_card",
    "C35_third_particle_refuted",
    "C35_second_particle_by_letters",
    "C35_no_particle",
    "C35_energy_card",
    "C35_divisors",
    "C35_no_cells_refuted",
    "C35_text_cards",
    "C35_rest_unchanged",
    "C35_stop_card"
   ],
   "note": "The exceptions named in the statement are proved as the _refuted theorems. Tally, energy, divisor, comment and multiplier cards proved for all id lists and one or two particles, with card(wrap=True) assumed to preserve the words of the card. Refuted: a third particle is dropped; no cells gives 'SD4 1 -1R'; cards not requested keep stale content."
  },
  {
   "property": "C36",
   "status": "proved",
   "theorems": [
    "C36_check_range",
    "C36_no_number_in_the_range"
   ],
   "note": "Ids are the keys of the dictionaries."
  },
  {
   "property": "C37",
   "status": "proved",
   "theorems": [
    "C37_only_the_zaids_matter",
    "C37_order",
    "C37_reaction_file_exact",
    "C37_needs_an_irradiation_file",
    "C37_more_daughters_more_reactions",
    "C37_comment_names_the_reaction"
   ],
   "note": "Exact set, order and comments of the reaction file, for any activation data."
  },
  {
   "property": "C38",
   "status": "proved",
   "theorems": [
    "C38_reads_every_file",
    "C38_tracks_of_any_bytes",
    "C38_number_of_a_word",
    "C38_truncated_header",
    "C38_truncated_track",
    "C38_unequal_lengths",
    "C38_other_codes",
    "C38_lost_tracks_refuted",
    "C38_track_lengths_unchecked_refuted",
    "C38_dump_number_refuted",
    "C38_title_is_utf8",
    "C38_number_of_a_small_word",
    "C38_special_words",
    "C38_words_are_covered"
   ],
   "note": "The exceptions named in the statement are proved as the _refuted theorems. Round trip proved for every D1S-UNED file layout (bytes to header, surfaces and 64-bit words; the IEEE value of a word), truncation and malformed header records rejected. Refuted: announced number of tracks and the record lengths around tracks are not checked; a last-dump number with a non-UTF-8 byte (128-255) makes the file unreadable."
  },
  {
   "property": "C39",
   "status": "proved",
   "theorems": [
    "C39_neutron_mask",
    "C39_photon_mask",
    "C39_partition",
    "C39_nan_refuted",
    "C39_particle_column"
   ],
   "note": "The exceptions named in the statement are proved as the _refuted theorems. Proved for tracks whose packed word is a number; a NaN word is in neither mask (refuted)."
  },
  {
   "property": "C40",
   "status": "proved",
   "theorems": [
    "C40_every_cell",
    "C40_total",
    "C40_x_range_alone_refuted",
    "C40_same_z_refuted",
    "C40_columns"
   ],
   "note": "The exceptions named in the statement are proved as the _refuted theorems. Exact rationals; np.angle and the norm are parameters. Every cell is the sum of its tracks, totals conserved. Refuted: x_range without z_range always raises; tracks all at the same z cannot be plotted."
  },
  {
   "property": "C41",
   "status": "proved",
   "theorems": [
    "C41_every_layout_is_read_into_the_same_array",
    "C41_layouts_agree",
    "C41_column_layout_with_volumes_refuted"
   ],
   "note": "The exceptions named in the statement are proved as the _refuted theorems. All four layouts proved equal for every mesh; refuted for the column layout with volumes (out=cf): the volume and the product are read as value and error."
  },
  {
   "property": "C42",
   "status": "proved",
   "theorems": [
    "C42_filter_returns_the_wanted_rows",
    "C42_illegal_queries_are_refused",
    "C42_narrower_queries_keep_less",
    "C42_summary_has_the_largest_values",
    "C42_summary_order",
    "C42_numeric_order",
    "C42_table_reused_refuted",
    "C42_library_rows"
   ],
   "note": "The exceptions named in the statement are proved as the _refuted theorems. Rows, order, values, refusals, monotonicity, group maxima and text order proved for every library and query. Numeric order only when the zaid numbers have equal length (text order otherwise, example). Refuted: the table given to the constructor is changed by it and cannot be used twice."
  },
  {
   "property": "C43",
   "status": "proved",
   "theorems": [
    "C43_every_voxel_is_read",
    "C43_no_voxels",
    "C43_truncated_voxel_refuted",
    "C43_following_text_refuted",
    "C43_zero_fraction",
    "C43_error_is_the_relative_deviation",
    "C43_grid_shows_the_largest_error",
    "C43_cell_shows_the_voxel_of_its_number",
    "C43_smallest_cell_is_worst",
    "C43_grid_cell_is_the_voxel",
    "C43_grid_order_refuted"
   ],
   "note": "The exceptions named in the statement are proved as the _refuted theorems. Reading, error formula (also over the reals) and the largest error per number proved for every file. Refuted: voxels are numbered with k fastest and grid cells with i fastest, so on every mesh with two long axes the errors land on wrong cells; a file cut inside a voxel loses that voxel silently; text after the last voxel raises ValueError."
  },
  {
   "property": "C44",
   "status": "proved",
   "theorems": [
    "C44_cutting_angles",
    "C44_unknown_sector",
    "C44_opening_is_the_sum_of_the_widths",
    "C44_gap_accepted_refuted",
    "C44_outer_and_graveyard",
    "C44_region_is_the_wedge",
    "C44_more_than_half_a_turn_refuted",
    "C44_requested_cells",
    "C44_tables",
    "C44_opposite_and_comments",
    "C44_source",
    "C44_no_source_card",
    "C44_each_surface",
    "C44_planes_move_outwards",
    "C44_reversed_planes_move_inwards_refuted",
    "C44_whole_turn_refuted",
    "C44_some_planes_stop_the_extraction_refuted",
    "C44_displacement_ignored_refuted",
    "C44_tables"
   ],
   "note": "The exceptions named in the statement are proved as the _refuted theorems. Cutting angles, openings, regions of outer cell and graveyard, source, requested cells and the treatment of every surface proved for all inputs (sine/cosine/norm are parameters; the wedge is proved over the reals). Refuted: lists with gaps are accepted; beyond half a turn part of the requested sectors goes to the graveyard; the whole turn stars boundary planes twice; filler planes with the reversed normal are moved into the sectors; rotated px/py/pz planes or cards ending in a comment abort the extraction; the displacement of a transformation is ignored."
  },
  {
   "property": "C45",
   "status": "proved",
   "theorems": [
    "C45_grid_shows_current_values",
    "C45_every_energy_bin_exported_refuted",
    "C45_each_cell_shows_its_voxel",
    "C45_max_ratio_is_the_largest"
   ],
   "note": "The exceptions named in the statement are proved as the _refuted theorems. Cell-by-cell statement proved for Cartesian and cylindrical grids after any history, for windows whose 2-decimal energy labels differ; refuted otherwise (labels collide below 0.005 MeV)."
  },
  {
   "property": "C46",
   "status": "proved",
   "theorems": [
    "C46_parents_sorted_unique_exact",
    "C46_order"
   ],
   "note": ""
  },
  {
   "property": "C47",
   "status": "proved",
   "theorems": [
    "C47_mass_of_a_tabulated_isotope",
    "C47_mass_of_any_other_zaid",
    "C47_reactions_of_a_parent",
    "C47_unknown_library_has_no_reactions",
    "C47_unknown_daughter_truncates_refuted"
   ],
   "note": "The exceptions named in the statement are proved as the _refuted theorems. Proved; refuted for a daughter of an unknown element, which truncates the list."
  },
  {
   "property": "C48",
   "status": "proved",
   "theorems": [
    "C48_whole_list",
    "C48_list_stops",
    "C48_failure_leaves_the_material_refuted",
    "C48_converting_twice",
    "C48_atom_densities_from_mass_fractions",
    "C48_atom_densities_from_atom_fractions"
   ],
   "note": "The exception is the _refuted theorem. Numbers are exact; masses are those of the table."
  },
  {
   "property": "C49",
   "status": "proved",
   "theorems": [
    "C49_stored_name",
    "C49_tally_name",
    "C49_every_card_is_kept",
    "C49_dose_function_overwrites_tally_refuted"
   ],
   "note": "The exceptions named in the statement are proved as the _refuted theorems. Proved when the normalised names are pairwise different; refuted: DF/SF/CF cards of a tally are stored under the tally's own name and replace it."
  },
  {
   "property": "C50",
   "status": "proved",
   "theorems": [
    "C50_pikmt",
    "C50_no_reaction_file",
    "C50_track_contribution",
    "C50_track_number",
    "C50_bad_who_changes_the_card_refuted"
   ],
   "note": "The exceptions named in the statement are proved as the _refuted theorems. Proved; refuted: a wrong `who` raises after the FU line has been added."
  },
  {
   "property": "C51",
   "status": "proved",
   "theorems": [
    "C51_cards_of_a_tally",
    "C51_added_tally_is_found"
   ],
   "note": ""
  },
  {
   "property": "C52",
   "status": "proved",
   "theorems": [
    "C52_two_libraries",
    "C52_same_library_refuted",
    "C52_needs_a_reaction_file"
   ],
   "note": "The exceptions named in the statement are proved as the _refuted theorems. Proved for different libraries, with and without fix_natural_zaid; refuted for equal ones: ValueError after the reaction file and PIKMT were changed."
  },
  {
   "property": "C53",
   "status": "proved",
   "theorems": [
    "C53_every_tally_is_read_from_its_own_text",
    "C53_only_the_asked_tallies_are_read",
    "C53_zero_reads_them_all",
    "C53_absent_tally_is_refused"
   ],
   "note": "The transformation line is read by a parameter here."
  },
  {
   "property": "C54",
   "status": "proved",
   "theorems": [
    "C54_every_voxel_holds_the_weighted_value",
    "C54_no_norm_refuted",
    "C54_totals_refuted",
    "C54_lone_cell_refuted"
   ],
   "note": "The exceptions named in the statement are proved as the _refuted theorems. Proved for every mesh whose voxels' fractions add up to 1 (no filter) or whose lone cells fill their voxel (filter). Refuted: without norm every mesh is refused; totals on cell lines are dropped and such a mesh is refused; a lone filtered cell is divided by its fraction without having been weighted."
  },
  {
   "property": "C55",
   "status": "proved",
   "theorems": [
    "C55_every_listed_voxel_is_placed_by_its_number",
    "C55_empty_voxel_refuted",
    "C55_lone_cell_refuted"
   ],
   "note": "The exceptions named in the statement are proved as the _refuted theorems. Proved for sources listed in increasing order with non-empty voxels. Refuted: a voxel filled by nothing raises ValueError; a lone cell is not weighted; voxels out of order are dropped."
  },
  {
   "property": "C56",
   "status": "proved",
   "theorems": [
    "C56_selected_values",
    "C56_selection_is_total"
   ],
   "note": ""
  },
  {
   "property": "C57",
   "status": "proved",
   "theorems": [
    "C57_arrays",
    "C57_cartesian_mesh_kept",
    "C57_cylinder_cut",
    "C57_points",
    "C57_grid_exists",
    "C57_rotation_refuted",
    "C57_filtered_unmoved_refuted"
   ],
   "note": "The exceptions named in the statement are proved as the _refuted theorems. Proved for every mesh; refuted: the rotation of a mesh is ignored in its grid; the last of several decay times (no total) is called tTot; a filtered mesh loses its transformation."
  },
  {
   "property": "C58",
   "status": "proved",
   "theorems": [
    "C58_one_axis",
    "C58_energies",
    "C58_two_axes_refused",
    "C58_wrong_error_refuted"
   ],
   "note": "The exceptions named in the statement are proved as the _refuted theorems. Proved for meshes that vary along one axis and for the energies of a single voxel. Refuted: some other shapes raise UnboundLocalError or KeyError instead of RuntimeError; the second real half-turn slice of a cylinder is dropped."
  },
  {
   "property": "C59",
   "status": "proved",
   "theorems": [
    "C59_every_field_is_there",
    "C59_other_mesh_refused",
    "C59_same_mesh",
    "C59_same_mesh_means"
   ],
   "note": "Proved for pairwise different names and a first name other than 'Error - Total'. Refuted: that name loses the errors; meshes at different places (transformations) are collapsed on the points of the first."
  },
  {
   "property": "C60",
   "status": "proved",
   "theorems": [
    "C60_translation",
    "C60_rigid_motion",
    "C60_rotation",
    "C60_refused",
    "C60_singular_refuted",
    "C60_each_by_its_card",
    "C60_half_done_refuted",
    "C60_from_the_input",
    "C60_missing_transformation"
   ],
   "note": "The exceptions named in the statement are proved as the _refuted theorems. Translations, rigid motions, errors, which mesh is moved: proved. Refuted: the rotation is the inverse of MCNP's (equal for symmetric matrices only); a singular matrix raises UnboundLocalError; 'tr = 5' raises KeyError and 'TR=5' is not seen; transforming several meshes is not atomic."
  },
  {
   "property": "C61",
   "status": "proved",
   "theorems": [
    "C61_numbers",
    "C61_small_values_refuted",
    "C61_csv",
    "C61_unknown_array",
    "C61_point_cloud",
    "C61_fluent",
    "C61_one_file_per_array",
    "C61_file_name_characters"
   ],
   "note": "The exceptions named in the statement are proved as the _refuted theorems. Proved for all values and points; file names per array proved for names that differ without brackets and slashes (refuted otherwise: one file is overwritten). Refuted as a useful precision: everything below 0.0005 is printed as 0.000."
  },
  {
   "property": "C62",
   "status": "proved",
   "theorems": [
    "C62_every_tally_is_read",
    "C62_a_nan_breaks_logging_refuted"
   ],
   "note": "The exceptions named in the statement are proved as the _refuted theorems. Proved for every text of ordinary, radiography and mesh tallies (of the picture bounds all but the last three are kept, as the statement says); not covered: infinities. Refuted: with INFO logging a NaN value makes the reader raise TypeError."
  },
  {
   "property": "C63",
   "status": "proved",
   "theorems": [
    "C63_read_tallies_qualify",
    "C63_rows",
    "C63_columns_left_out",
    "C63_mesh_axes_exchanged_refuted",
    "C63_nan_removes_the_column_refuted",
    "C63_pixels_left_out_refuted"
   ],
   "note": "The exceptions named in the statement are proved as the _refuted theorems. Proved for every tally read (with at least one segment besides the total). Refuted: the mesh coordinates A and C are under exchanged names; one NaN removes the whole column of values; the last two pixels of every row of a radiography tally have no row."
  },
  {
   "property": "C64",
   "status": "proved",
   "theorems": [
    "C64_totals_of_every_cell",
    "C64_no_totals",
    "C64_total_of_another_tally_refuted"
   ],
   "note": "The exceptions named in the statement are proved as the _refuted theorems. Proved for every list of tallies with different numbers when the axis of the total has bin names. Refuted: a tally without total after one with a total gets an empty table instead of None."
  },
  {
   "property": "C65",
   "status": "proved",
   "theorems": [
    "C65_summary",
    "C65_one_line_per_tally",
    "C65_duplicate_rows_refuted"
   ],
   "note": "The exceptions named in the statement are proved as the _refuted theorems. Proved when no row of the table was dropped as a duplicate. Refuted otherwise: labels are used as positions, so the summary fails with IndexError or shows the value of another row."
  },
  {
   "property": "C66",
   "status": "proved",
   "theorems": [
    "C66_wrong_number_of_values_refused",
    "C66_no_tallies_or_perturbations_refused",
    "C66_silently_accepted_refuted",
    "C66_cut_file_never_ends_refuted"
   ],
   "note": "The exceptions named in the statement are proved as the _refuted theorems. Proved: too few values, whole lines of values too many, no tallies, perturbations. Refuted: extra values on the last line and one bin too many are accepted silently, a blank line hides the tallies after it, a file cut before vals is read for ever."
  },
  {
   "property": "C67",
   "status": "proved",
   "theorems": [
    "C67_every_mesh_is_read",
    "C67_the_last_mesh_with_a_number_is_kept",
    "C67_a_cut_file_is_refused"
   ],
   "note": "Proved for every such text; NaN masses are not modelled."
  },
  {
   "property": "C68",
   "status": "proved",
   "theorems": [
    "C68_filters_keep_the_matching_rows",
    "C68_cells_of_materials",
    "C68_materials"
   ],
   "note": ""
  },
  {
   "property": "C69",
   "status": "proved",
   "theorems": [
    "C69_what_was_read_is_loaded_as_saved",
    "C69_load_after_save",
    "C69_equality",
    "C69_no_masses_refuted",
    "C69_different_sizes_refuted"
   ],
   "note": "The exceptions named in the statement are the theorems C69_no_masses_refuted and C69_different_sizes_refuted."
  },
  {
   "property": "C70",
   "status": "proved",
   "theorems": [
    "C70_one_row_per_lost_particle",
    "C70_as_many_rows_as_lost_particles",
    "C70_a_cut_report_is_refused",
    "C70_the_report_counts_every_particle",
    "C70_the_report_by_universe",
    "C70_no_lost_particle_with_an_input_refuted",
    "C70_cells_without_universe_refuted"
   ],
   "note": "Exceptions named in the statement: C70_no_lost_particle_with_an_input_refuted, C70_cells_without_universe_refuted. The vtp file is not modelled."
  },
  {
   "property": "C71",
   "status": "proved",
   "theorems": [
    "C71_lost_particles",
    "C71_no_lost_particles",
    "C71_histories",
    "C71_no_histories",
    "C71_ratio",
    "C71_no_neutrons",
    "C71_ratio_without_lost_particles_refuted"
   ],
   "note": "The particle of get_NPS is a plain text in the model (in the code a regular expression)."
  },
  {
   "property": "C72",
   "status": "proved",
   "theorems": [
    "C72_every_tally_has_its_result",
    "C72_no_summary",
    "C72_an_unclear_result_is_that_of_the_previous_tally_refuted",
    "C72_an_unclear_first_result_fails_refuted"
   ],
   "note": "The exceptions of the statement are the two refuted theorems."
  },
  {
   "property": "C73",
   "status": "proved",
   "theorems": [
    "C73_the_table_of_a_tally",
    "C73_a_tally_without_table_is_refused",
    "C73_every_tally_has_its_row",
    "C73_a_missing_table_is_refused",
    "C73_no_tallies_refuted",
    "C73_a_short_row_hides_a_failed_check_refuted",
    "C73_eleven_columns"
   ],
   "note": "Exceptions: C73_no_tallies_refuted, C73_a_short_row_hides_a_failed_check_refuted."
  },
  {
   "property": "C74",
   "status": "proved",
   "theorems": [
    "C74_every_result_under_its_description",
    "C74_unknown_tally_gets_another_description_refuted",
    "C74_unknown_first_tally_fails_refuted"
   ],
   "note": "Exceptions: the two refuted theorems."
  },
  {
   "property": "C75",
   "status": "proved",
   "theorems": [
    "C75_the_rows_of_the_table",
    "C75_no_table_is_refused",
    "C75_the_columns_end_where_the_words_end",
    "C75_a_line_without_leading_blank_refuted",
    "C75_widths_of_another_instance_refuted"
   ],
   "note": "Proved for what is asked of pandas.read_fwf (rows and widths), which is not modelled itself. Exceptions: the two refuted theorems."
  },
  {
   "property": "C76",
   "status": "proved",
   "theorems": [
    "C76_d1suned_version",
    "C76_mcnp_version",
    "C76_no_version_is_refused",
    "C76_only_the_first_line_refuted",
    "C76_other_files",
    "C76_only_four_lines"
   ],
   "note": "Versions in other files of the folder are modelled but not part of the statement."
  },
  {
   "property": "C77",
   "status": "proved",
   "theorems": [
    "C77_every_warning_is_counted",
    "C77_the_text_of_a_warning",
    "C77_warnings_to_leave_out_refuted",
    "C77_every_fatal_error"
   ],
   "note": "Exception: C77_warnings_to_leave_out_refuted."
  },
  {
   "property": "C78",
   "status": "proved",
   "theorems": [
    "C78_the_section_is_read",
    "C78_every_path_is_read",
    "C78_as_many_as_paths",
    "C78_no_section_is_refused",
    "C78_a_misfit_is_refused",
    "C78_long_path_doubles_a_nuclide_refuted",
    "C78_direct_path_with_other_reactions_refuted",
    "C78_capitals"
   ],
   "note": "Exceptions of the statement: C78_long_path_doubles_a_nuclide_refuted (the code's own test expects the doubled nuclide), C78_direct_path_with_other_reactions_refuted."
  },
  {
   "property": "C79",
   "status": "proved",
   "theorems": [
    "C79_every_pathway_has_its_row",
    "C79_unknown_element_is_refused",
    "C79_the_order_is_not_that_of_isotopes_refuted",
    "C79_no_pathways_refuted",
    "C79_the_text_of_a_pathway"
   ],
   "note": "Exceptions: C79_the_order_is_not_that_of_isotopes_refuted, C79_no_pathways_refuted; the order of rows with equal keys is unspecified (pandas)."
  },
  {
   "property": "C80",
   "status": "proved",
   "theorems": [
    "C80_file_is_read",
    "C80_second_order_cell_type_refuted",
    "C80_characters",
    "C80_value_lines",
    "C80_node_columns"
   ],
   "note": "Exceptions named in the statement: LastBlock in the specification, and C80_second_order_cell_type_refuted. Attachment of arrays to points or cells and the vtk format are not modelled."
  },
  {
   "property": "C81",
   "status": "proved",
   "theorems": [
    "C81_mixed_elements_are_refused",
    "C81_wrong_particle_list_is_refused",
    "C81_node_ordered_is_refused",
    "C81_what_is_read_is_consistent"
   ],
   "note": "pyvista's check of array lengths is assumed to raise ValueError."
  },
  {
   "property": "C82",
   "status": "proved",
   "theorems": [
    "C82_export_path",
    "C82_export_refusals"
   ],
   "note": "The vtk writer is not modelled."
  },
  {
   "property": "C83",
   "status": "proved",
   "theorems": [
    "C83_no_directory",
    "C83_file_is_read",
    "C83_what_is_read_has_its_parts",
    "C83_short_entries_are_refused"
   ],
   "note": "The lines left out are part of the specification (Gap, End). nan and inf are not modelled."
  },
  {
   "property": "C84",
   "status": "proved",
   "theorems": [
    "C84_exact",
    "C84_default",
    "C84_fast",
    "C84_has_table",
    "C84_tables_of_a_library",
    "C84_long_suffix_refuted"
   ],
   "note": "Exception: C84_long_suffix_refuted."
  },
  {
   "property": "C85",
   "status": "proved",
   "theorems": [
    "C85_metastable",
    "C85_serpent_file",
    "C85_serpent_reads_every_other_line"
   ],
   "note": "str of a float and the format .11e are parameters of the theorem."
  },
  {
   "property": "C86",
   "status": "proved",
   "theorems": [
    "C86_libraries_of_each_code",
    "C86_default_library",
    "C86_one_file_for_two_kinds_refuted",
    "C86_openmc_has_no_tables_refuted",
    "C86_openmc_lines",
    "C86_unknown_code",
    "C86_openmc_libraries"
   ],
   "note": "Exceptions: the two refuted theorems; missing values (NaN) of the configuration are not modelled; the reader of a file is a parameter."
  },
  {
   "property": "C87",
   "status": "proved",
   "theorems": [
    "C87_files_of_the_library",
    "C87_paths"
   ],
   "note": "posix paths, folder without a final separator."
  },
  {
   "property": "C88",
   "status": "proved",
   "theorems": [
    "C88_one_nuclide",
    "C88_many_nuclides",
    "C88_each_nuclide_with_its_own_refuted",
    "C88_groups_of_one_nuclide",
    "C88_sum_of_functions"
   ],
   "note": "Exception: C88_each_nuclide_with_its_own_refuted (two nuclides with fractions 0.1 and 0.9). The cross sections of a nuclide (endf package), logspace and float rounding are parameters or not modelled; the normalisation of the fractions is switch_fraction (C24)."
  },
  {
   "property": "C89",
   "status": "proved",
   "theorems": [
    "C89_labels_of_each_slice",
    "C89_label_is_right_only_from_the_last_threshold",
    "C89_second_slice_right_only_in_two_classes",
    "C89_right_category_refuted",
    "C89_colours",
    "C89_no_colours_for_TNF_and_SDDR",
    "C89_tables"
   ],
   "note": "The wrong labels are in the statement; C89_right_category_refuted shows 0.5 Gy labelled 1-10 Gy. Values are exact numbers (no NaN)."
  },
  {
   "property": "C90",
   "status": "proved",
   "theorems": [
    "C90_images",
    "C90_refused"
   ],
   "note": "Drawing (pyvista) is a parameter; posix paths."
  },
  {
   "property": "C91",
   "status": "proved",
   "theorems": [
    "C91_toroidal",
    "C91_all_named_right",
    "C91_names_refuted",
    "C91_other_increments",
    "C91_rows_and_axis"
   ],
   "note": "The cuts themselves (pyvista) are parameters; angles are exact and in degrees. C91_names_refuted shows a wrong name after an empty cut."
  },
  {
   "property": "C92",
   "status": "proved",
   "theorems": [
    "C92_add_section",
    "C92_bad_level",
    "C92_build_from_root",
    "C92_pictures_by_name",
    "C92_atlas_file"
   ],
   "note": "python-docx is taken to accept levels 0 to 9; every picture file is taken to be readable."
  },
  {
   "property": "C93",
   "status": "proved",
   "theorems": [
    "C93_series",
    "C93_labels_refused"
   ],
   "note": "The binning (matplotlib) is not modelled."
  },
  {
   "property": "C94",
   "status": "proved",
   "theorems": [
    "C94_material_card",
    "C94_fraction_on_next_line_refuted",
    "C94_nuclide_after_keyword_refuted",
    "C94_keywords_of_first_part_refuted",
    "C94_comment_at_the_end_refuted",
    "C94_indented_comment_refuted"
   ],
   "note": "The exceptions named in the statement are proved as the _refuted theorems. The density line of OpenMC materials is not modelled; nan, inf and underscores in numbers are errors of the model."
  },
  {
   "property": "C95",
   "status": "proved",
   "theorems": [
    "C95_nuclide_line",
    "C95_written_card_is_read_back",
    "C95_fractions",
    "C95_again",
    "C95_mx_cards",
    "C95_list",
    "C95_missing_header_refuted"
   ],
   "note": "The exception is C95_missing_header_refuted. The texts of the in-line information (formula, weight, abundance) are parameters without line ends; names of at most ten characters; materials without MX cards."
  },
  {
   "property": "C96",
   "status": "proved",
   "theorems": [
    "C96_kinds_of_cards",
    "C96_materials_in_order",
    "C96_mx_cards",
    "C96_mx_of_the_next_material_refuted",
    "C96_writing_mx_cards_refuted",
    "C96_writing",
    "C96_mx_card_first"
   ],
   "note": "The exceptions are the two refuted theorems. The cards are those of the parser (numjuggler)."
  },
  {
   "property": "C97",
   "status": "proved",
   "theorems": [
    "C97_written_file",
    "C97_two_blank_lines",
    "C97_blank_first_line_refuted"
   ],
   "note": "The exception is C97_blank_first_line_refuted. The text of a card (numjuggler) is a parameter."
  },
  {
   "property": "C98",
   "status": "proved",
   "theorems": [
    "C98_characters",
    "C98_tally_summary",
    "C98_no_tally",
    "C98_other_particle_refuted",
    "C98_second_particle_refuted",
    "C98_comment_text_refuted",
    "C98_empty_multiplier"
   ],
   "note": "The exceptions are the _refuted theorems and C98_empty_multiplier. repr of a text is a parameter; which keys are tallies is decided by numjuggler's card type; rows of equal numbers have no specified order."
  },
  {
   "property": "C99",
   "status": "proved",
   "theorems": [
    "C99_scaled",
    "C99_text",
    "C99_zero_factor_refuted"
   ],
   "note": "The exception is C99_zero_factor_refuted. Numbers exact; get_d and set_d of numjuggler read and rewrite the first hidden text (no cache)."
  },
  {
   "property": "C100",
   "status": "proved",
   "theorems": [
    "C100_densities_range",
    "C100_range_exists",
    "C100_cells_summary",
    "C100_no_cells"
   ],
   "note": "The conversion of an atom density (materials) and the density of a void cell are parameters; every cell has a material number."
  },
  {
   "property": "C101",
   "status": "proved",
   "theorems": [
    "C101_cells_and_surfaces",
    "C101_missing",
    "C101_copies",
    "C101_data_cards",
    "C101_materials",
    "C101_white_boundary_refuted"
   ],
   "note": "The exception is C101_white_boundary_refuted."
  },
  {
   "property": "C102",
   "status": "proved",
   "theorems": [
    "C102_hash_multiple_cells",
    "C102_missing_cell"
   ],
   "note": "Cells of ordinary layout (number, material and density set apart by blanks, keywords not glued to the geometry); numjuggler as in C33."
  },
  {
   "property": "C103",
   "status": "proved",
   "theorems": [
    "C103_element_table",
    "C103_parts_add_up_to_one",
    "C103_same_element_table_at_both_levels",
    "C103_zaid_rows",
    "C103_element_rows",
    "C103_lists"
   ],
   "note": "Exact fractions; a division by zero gives a missing number. The zaids need masses and unambiguous numbers (wf_material, consistent: what every constructor gives)."
  },
  {
   "property": "C104",
   "status": "proved",
   "theorems": [
    "C104_in_line_information",
    "C104_when_it_exists",
    "C104_zero_element_refuted",
    "C104_lost_submaterial_refuted"
   ],
   "note": "Exact fractions; the printed form of the numbers is not modelled. The two exceptions are the _refuted theorems."
  },
  {
   "property": "C105",
   "status": "proved",
   "theorems": [
    "C105_every_entry_is_translated",
    "C105_nothing_left",
    "C105_unknown_symbol"
   ],
   "note": "translated is the relation of C22; the density given in the header is not modelled."
  },
  {
   "property": "C106",
   "status": "proved",
   "theorems": [
    "C106_placement",
    "C106_is_a_rotation",
    "C106_mcnp5",
    "C106_mcnp5_other_axis_refuted",
    "C106_vector_not_tested_refuted",
    "C106_cdgs_standard",
    "C106_cdgs_placed_refuted",
    "C106_cdgs_cylinder_refuted"
   ],
   "note": "Coordinates are exact numbers; nan and inf are not modelled. The exceptions are the _refuted theorems."
  },
  {
   "property": "C107",
   "status": "proved",
   "theorems": [
    "C107_every_source",
    "C107_list",
    "C107_a_line_between_refuted",
    "C107_cut_file_refuted"
   ],
   "note": "Sources are Sensible: at least one boundary per axis, voxels in increasing order, as C55 asks. The exceptions are the _refuted theorems."
  },
  {
   "property": "C108",
   "status": "proved",
   "theorems": [
    "C108_window",
    "C108_rectangular_placement",
    "C108_cylinder_placement",
    "C108_reversed_origin_refuted",
    "C108_centred_cylinder_refuted",
    "C108_downward_cylinder_refuted",
    "C108_several_groups_are_refused",
    "C108_no_such_tally",
    "C108_softening",
    "C108_cylinder_drawn"
   ],
   "note": "Fluxes are exact numbers, at least one positive. The exceptions are the _refuted theorems."
  },
  {
   "property": "C109",
   "status": "proved",
   "theorems": [
    "C109_cartesian",
    "C109_displaced_twice_refuted",
    "C109_cylinder",
    "C109_upright_cylinder",
    "C109_default_vectors",
    "C109_mirrored_vector_refuted",
    "C109_vector_along_z_refuted",
    "C109_downward_axis_refuted",
    "C109_directors_are_points_refuted",
    "C109_cells_show_their_values"
   ],
   "note": "Points are real numbers (single precision is not modelled); rotations are those pyvista documents. For other pairs of axis and vector the theorem gives the cylinder up to its starting angle. The exceptions are the _refuted theorems."
  },
  {
   "property": "C110",
   "status": "proved",
   "theorems": [
    "C110_document",
    "C110_text_determines_content",
    "C110_exists",
    "C110_materials_without_density_refuted"
   ],
   "note": "The text of a number (str of a float) is a parameter; xml.etree.ElementTree is modelled from its documentation and source. The exception is the _refuted theorem."
  },
  {
   "property": "C111",
   "status": "proved",
   "theorems": [
    "C111_input_untouched",
    "C111_independent_of_the_history",
    "C111_first_accepted_file",
    "C111_wrong_file_refused",
    "C111_later_file_ignored_refuted",
    "C111_cells_written",
    "C111_outer_and_graveyard_written",
    "C111_surfaces_written",
    "C111_materials_header_transformations_written",
    "C111_data_written",
    "C111_unknown_sector",
    "C111_no_sector",
    "C111_cutting_planes_missing_refuted"
   ],
   "note": "Reading the fields of a surface or transformation card from a numjuggler card and storing them back are parameters. The exceptions are the _refuted theorems."
  },
  {
   "property": "C112",
   "status": "proved",
   "theorems": [
    "C112_lists_follow_the_cards",
    "C112_numbers_in_order",
    "C112_names_of_meshes",
    "C112_reading",
    "C112_cards_of_a_merge",
    "C112_last_tally",
    "C112_summary_numbers",
    "C112_tally_of_both_refuted",
    "C112_refused_tally_refuted",
    "C112_updated_keys",
    "C112_updated_keys_exist",
    "C112_updated_keys_refuted"
   ],
   "note": "The exceptions named in the statement are proved as the _refuted theorems. That numjuggler tells tallies by their name and reads their number is a hypothesis on the cards read (right). The exceptions are the _refuted theorems."
  },
  {
   "property": "C113",
   "status": "proved",
   "theorems": [
    "C113_translates_every_material",
    "C113_when_it_returns",
    "C113_text_and_dictionary_agree",
    "C113_refused_before_anything_changes",
    "C113_where_it_stops",
    "C113_empty_dictionary",
    "C113_search_in_any_dictionary",
    "C113_unknown_library_refuted"
   ],
   "note": "json.loads is a parameter; the exception is C113_unknown_library_refuted."
  },
  {
   "property": "C114",
   "status": "proved",
   "theorems": [
    "C114_translating_twice",
    "C114_shipped_table_has_isotopes_only",
    "C114_leading_zeros_refuted",
    "C114_dictionary_refuted"
   ],
   "note": "Fractions are exact rationals; the in-line information is not part of the statement. The exceptions are the _refuted theorems."
  },
  {
   "property": "C115",
   "status": "proved",
   "theorems": [
    "C115_saved_window_loads_back",
    "C115_after_any_calls",
    "C115_close_energies_merge_refuted",
    "C115_default_name_is_another",
    "C115_default_names_differ_refuted",
    "C115_drawn"
   ],
   "note": "Values must stay numbers a file can hold (0 or between 1e-999 and 1e998). The exceptions are the _refuted theorems."
  },
  {
   "property": "C116",
   "status": "proved",
   "theorems": [
    "C116_equal_irradiations",
    "C116_equivalence",
    "C116_when_comparing_raises",
    "C116_modified_time_survives_the_file",
    "C116_equal_vectors",
    "C116_vectors_reflexive_symmetric",
    "C116_vectors_transitive_refuted"
   ],
   "note": "float() is exact in the model, and inf and nan are not numbers. Vectors: not transitive (_refuted)."
  },
  {
   "property": "C117",
   "status": "proved",
   "theorems": [
    "C117_multiple",
    "C117_cylinder_is_recognised",
    "C117_what_cylinder_means",
    "C117_plane",
    "C117_plane_is_recognised_refuted",
    "C117_description",
    "C117_tracks_add_up",
    "C117_name",
    "C117_names_differ_refuted",
    "C117_histories"
   ],
   "note": "Real arithmetic for the radius and the standard deviation; infinite and NaN coordinates not modelled; the text of the radius is a parameter. The exceptions are the _refuted theorems."
  },
  {
   "property": "C118",
   "status": "proved",
   "theorems": [
    "C118_assignment",
    "C118_history",
    "C118_new",
    "C118_info",
    "C118_info_axes",
    "C118_second_axis_refuted",
    "C118_third_axis_refuted"
   ],
   "note": "The grid is in C56-C61. The second and third axes of print_info are the _refuted theorems."
  },
  {
   "property": "C119",
   "status": "proved",
   "theorems": [
    "C119_temperature",
    "C119_answer",
    "C119_answers",
    "C119_unknown_type",
    "C119_names",
    "C119_special_types",
    "C119_files"
   ],
   "note": "The endf package (reactions, components, sum rules, names) is a parameter; values are exact rationals and the logarithmic decrement is a number of the nuclide; yields are taken to be true objects (no __len__ or __bool__)."
  },
  {
   "property": "C120",
   "status": "proved",
   "theorems": [
    "C120_decoding",
    "C120_report",
    "C120_empty"
   ],
   "note": "open() is taken to use UTF-8 and universal newlines, the defaults of Python on the supported platforms."
  },
  {
   "property": "C121",
   "status": "proved",
   "theorems": [
    "C121_mean",
    "C121_only_proportions",
    "C121_between",
    "C121_the_material_is_changed_refuted"
   ],
   "note": "Continuous energies; the groups are in C88. The endf package and the interpolation are parameters, numbers are exact."
  },
  {
   "property": "C122",
   "status": "proved",
   "theorems": [
    "C122_comments",
    "C122_determined",
    "C122_none",
    "C122_last_line_refuted",
    "C122_once_refuted",
    "C122_every_comment_line_refuted"
   ],
   "note": "The exceptions are the _refuted theorems. Text is ASCII."
  },
  {
   "property": "C123",
   "status": "proved",
   "theorems": [
    "C123_files",
    "C123_not_overwritten",
    "C123_errors_file_refuted",
    "C123_scale",
    "C123_empty",
    "C123_given_range",
    "C123_range_is_covered_refuted"
   ],
   "note": "The exceptions are the _refuted theorems. The rounding of np.log10 and the drawing are not modelled."
  },
  {
   "property": "C124",
   "status": "proved",
   "theorems": [
    "C124_deleted",
    "C124_twice",
    "C124_stops"
   ],
   "note": "numjuggler's remove_fill and its reading of the wrapped text are parameters: assumed to give a card of the same number without a fill."
  },
  {
   "property": "C125",
   "status": "proved",
   "theorems": [
    "C125_a_vts_file",
    "C125_given",
    "C125_given_plain",
    "C125_default",
    "C125_two_dots_refuted"
   ],
   "note": "The exception is the _refuted theorem. pathlib's stem and suffix are modelled; the content of the file is in C115 and not the VTK format."
  },
  {
   "property": "C126",
   "status": "proved",
   "theorems": [
    "C126_input_stays_in_order",
    "C126_number_leads_to_its_card",
    "C126_merge_in_order",
    "C126_surface_twice_refuted",
    "C126_extracted_input_in_order",
    "C126_extracted_renumbered_in_order"
   ],
   "note": "The limits are hypotheses, one shown necessary by the _refuted theorem. Cards and dictionaries as in C28-C34; calls that raise end the history."
  },
  {
   "property": "C127",
   "status": "proved",
   "theorems": [
    "C127_offsets_add_up",
    "C127_cancelling_offsets",
    "C127_zero_is_absorbed_refuted"
   ],
   "note": "The limit is a hypothesis, shown necessary by the _refuted theorem. Cells and surfaces; the keys of the data cards change with the first call (C29)."
  },
  {
   "property": "C128",
   "status": "proved",
   "theorems": [
    "C128_keys_name_their_cards",
    "C128_what_is_accepted",
    "C128_rejected_with_value_error",
    "C128_card_takes_the_number",
    "C128_update_done",
    "C128_update_stops",
    "C128_unchecked_methods",
    "C128_setdefault_is_not_checked_refuted",
    "C128_or_is_not_checked_refuted",
    "C128_one_card_two_keys_refuted"
   ],
   "note": "The exceptions named in the statement are proved as the _refuted theorems. The _refuted theorems are the limits named in the statement. numjuggler _set_value_by_type as in the Inp model."
  },
  {
   "property": "C129",
   "status": "proved",
   "theorems": [
    "C129_file_then_translation",
    "C129_complete_libraries",
    "C129_activation_library_is_for_paths",
    "C129_zaid_missing_from_the_activation_library_refuted",
    "C129_natural_elements_expanded_too_late_refuted"
   ],
   "note": "Composition of the Paths, Mat, Lib and Data models; no file access. The _refuted theorems are the limits named in the statement."
  },
  {
   "property": "C130",
   "status": "proved",
   "theorems": [
    "C130_generated_file_is_read_back",
    "C130_irradiation_file_from_disk",
    "C130_selected_daughters",
    "C130_translation_through_files"
   ],
   "note": "Text of the files as lists of lines; library names of more than five characters are outside the claim (the parent column is 13 wide)."
  },
  {
   "property": "C131",
   "status": "proved",
   "theorems": [
    "C131_mass_shares_are_kept",
    "C131_elements_are_kept",
    "C131_shares_add_up",
    "C131_two_lives_agree",
    "C131_atom_fractions_refuted"
   ],
   "note": "Rational arithmetic instead of doubles. The _refuted theorem is the exception named in the statement."
  },
  {
   "property": "C132",
   "status": "proved",
   "theorems": [
    "C132_plots_iff",
    "C132_no_weight_lost",
    "C132_adjacent_ranges_refuted"
   ],
   "note": "Rational arithmetic instead of doubles; infinite weights and coordinates read as 0. The _refuted theorem is the exception named in the statement."
  },
  {
   "property": "C133",
   "status": "proved",
   "theorems": [
    "C133_tally_to_file_and_back",
    "C133_placement_in_the_file"
   ],
   "note": "Composes C53, C108 and C115. Rational arithmetic instead of doubles; the reversed origin is the refuted part of C108."
  },
  {
   "property": "C134",
   "status": "proved",
   "theorems": [
    "C134_from_text_to_tables"
   ],
   "note": "Composes C62, C63 and C66. As in C63 the coordinates A and C of a mesh are excepted: they are exchanged there (C63_mesh_axes_exchanged_refuted)."
  },
  {
   "property": "C135",
   "status": "proved",
   "theorems": [
    "C135_grid_is_made",
    "C135_grid_shows_the_file",
    "C135_filtered_grid",
    "C135_exported_points"
   ],
   "note": "Composes C41, C53, C56, C57 and C61. The restrictions on the text of a tally are those of C53; the centres of the cells are a parameter of the point cloud."
  }
 ]
}