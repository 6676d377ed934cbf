{
 "claims": [
  {
   "property": "C01",
   "status": "proved",
   "theorems": [
    "C01_distance_is_shortest"
   ],
   "note": ""
  },
  {
   "property": "C02",
   "status": "proved",
   "theorems": [
    "C02_vector_leads_to_destination",
    "C02_docstring_sign_refuted",
    "C02_hops_in_any_order"
   ],
   "note": "The docstring's sign convention for z is refuted by C02_docstring_sign_refuted; the convention in the property is proved."
  },
  {
   "property": "C03",
   "status": "proved",
   "theorems": [
    "C03_opposite_returns",
    "C03_opposite_involution",
    "C03_links_lead_to_different_chips",
    "C03_bad_link_raises"
   ],
   "note": ""
  },
  {
   "property": "C04",
   "status": "proved",
   "theorems": [
    "C04_distance_is_a_metric",
    "C04_same_everywhere",
    "C04_neighbours"
   ],
   "note": ""
  },
  {
   "property": "C05",
   "status": "proved",
   "theorems": [
    "C05_concentric_is_the_ball",
    "C05_concentric_order",
    "C05_concentric_no_repeats"
   ],
   "note": ""
  },
  {
   "property": "C06",
   "status": "proved",
   "theorems": [
    "C06_global_of_local",
    "C06_local_of_global"
   ],
   "note": ""
  },
  {
   "property": "C07",
   "status": "proved",
   "theorems": [
    "C07_existing_and_down_partition",
    "C07_board_coordinates",
    "C07_chips_by_ethernet",
    "C07_existing_on_board",
    "C07_chips_of_the_same_board"
   ],
   "note": ""
  },
  {
   "property": "C08",
   "status": "proved",
   "theorems": [
    "C08_local_chip_coordinate",
    "C08_ethernet_chip_coordinates"
   ],
   "note": ""
  },
  {
   "property": "C09",
   "status": "proved",
   "theorems": [
    "C09_potential_ethernet_chips",
    "C09_accepted_sizes"
   ],
   "note": ""
  },
  {
   "property": "C10",
   "status": "proved",
   "theorems": [
    "C10_boards_tile",
    "C10_covered_exactly"
   ],
   "note": ""
  },
  {
   "property": "C11",
   "status": "proved",
   "theorems": [
    "C11_accepted_sizes",
    "C11_created_machine",
    "C11_verify_size"
   ],
   "note": ""
  },
  {
   "property": "C12",
   "status": "proved",
   "theorems": [
    "C12_enough_boards",
    "C12_exact_size",
    "C12_monotone",
    "C12_rounding_loses_a_board_refuted",
    "C12_single_board_versions"
   ],
   "note": "Binary64 division, sqrt and ceil are modelled exactly. True for n <= 3*2^52; C12_rounding_loses_a_board_refuted gives n = 3*2^52+1 where the rounding loses a board."
  },
  {
   "property": "C13",
   "status": "proved",
   "theorems": [
    "C13_enough_chips",
    "C13_enough_cores",
    "C13_enough_boards",
    "C13_fewest_boards",
    "C13_core_limit_ignored_refuted",
    "C13_too_many_monitors_refuted"
   ],
   "note": "For n up to 3*2^52 boards. Refuted with a cfg limit on cores (C13_core_limit_ignored_refuted) or too many monitors (C13_too_many_monitors_refuted)."
  },
  {
   "property": "C14",
   "status": "proved",
   "theorems": [
    "C14_covers_the_request",
    "C14_machine",
    "C14_rounding_refuted"
   ],
   "note": "Sizes below 2^53; beyond that refuted by C14_rounding_refuted."
  },
  {
   "property": "C15",
   "status": "proved",
   "theorems": [
    "C15_limits",
    "C15_cfg_size_checked",
    "C15_cfg_error"
   ],
   "note": ""
  },
  {
   "property": "C16",
   "status": "proved",
   "theorems": [
    "C16_quads_on_the_mesh",
    "C16_quad_bijection",
    "C16_no_quads_on_spin1"
   ],
   "note": ""
  },
  {
   "property": "C17",
   "status": "proved",
   "theorems": [
    "C17_accepted_texts",
    "C17_meaning",
    "C17_other_texts_raise"
   ],
   "note": "ASCII strings. Exact set of accepted texts and the exception for every other text."
  },
  {
   "property": "C18",
   "status": "proved",
   "theorems": [
    "C18_returned_version",
    "C18_otherwise_raises",
    "C18_conflicts_raise",
    "C18_consistent_settings_accepted_refuted",
    "C18_names_of_groups",
    "C18_groups",
    "C18_eight_by_eight_refuted"
   ],
   "note": "Exact condition. A consistent cfg can still be refused: version 248 with its own size (C18_consistent_settings_accepted_refuted)."
  },
  {
   "property": "C19",
   "status": "proved",
   "theorems": [
    "C19_machine_is_a_map_of_chips",
    "C19_refused_chip_changes_nothing"
   ],
   "note": ""
  },
  {
   "property": "C20",
   "status": "proved",
   "theorems": [
    "C20_counts"
   ],
   "note": "Routers are immutable values in the model: counts after a later router.add_link on a chip already added are outside the claim (the code's counters do not follow such changes)."
  },
  {
   "property": "C21",
   "status": "proved",
   "theorems": [
    "C21_ethernet_chips_and_boot_address"
   ],
   "note": ""
  },
  {
   "property": "C22",
   "status": "proved",
   "theorems": [
    "C22_validate_accepts_exactly_well_formed"
   ],
   "note": ""
  },
  {
   "property": "C23",
   "status": "proved",
   "theorems": [
    "C23_unused_xy",
    "C23_unused_xy_stable"
   ],
   "note": ""
  },
  {
   "property": "C24",
   "status": "proved",
   "theorems": [
    "C24_all_spinnaker_links",
    "C24_spinnaker_link_lookups",
    "C24_lookups_on_virtual_machines"
   ],
   "note": ""
  },
  {
   "property": "C25",
   "status": "proved",
   "theorems": [
    "C25_n_fpga_links",
    "C25_n_fpga_links_counts_links_refuted",
    "C25_fpga_numbering_goes_round_the_edge",
    "C25_fpga_link_lookups",
    "C25_fpga_links_are_the_board_edge",
    "C25_lookups_on_virtual_machines"
   ],
   "note": ""
  },
  {
   "property": "C26",
   "status": "proved",
   "theorems": [
    "C26_one_way_links",
    "C26_unreachable_outgoing",
    "C26_reports_without_wrap",
    "C26_reports_exact_on_unwrapped_machines",
    "C26_documented_meaning_across_the_seam_refuted"
   ],
   "note": "On wrapping machines the documented meaning of the neighbour reports fails across the seam: C26_documented_meaning_across_the_seam_refuted."
  },
  {
   "property": "C27",
   "status": "proved",
   "theorems": [
    "C27_router_entries",
    "C27_is_not_the_minimum_refuted"
   ],
   "note": "The name and docstring promise the minimum; refuted by C27_is_not_the_minimum_refuted."
  },
  {
   "property": "C28",
   "status": "proved",
   "theorems": [
    "C28_virtual_is_made",
    "C28_when_created",
    "C28_places_are_unique",
    "C28_chips",
    "C28_chip",
    "C28_ethernet_agrees_with_geometry",
    "C28_validated",
    "C28_spinnaker_and_fpga_links"
   ],
   "note": "Exact success conditions, chips and fields, with and without validation."
  },
  {
   "property": "C29",
   "status": "proved",
   "theorems": [
    "C29_links",
    "C29_no_one_way_links"
   ],
   "note": "For all down link sets."
  },
  {
   "property": "C30",
   "status": "proved",
   "theorems": [
    "C30_needs_no_repair",
    "C30_repair_of_single_chip_refuted",
    "C30_valid_and_complete",
    "C30_nothing_to_report",
    "C30_single_chip_is_reported_refuted"
   ],
   "note": "Refuted for version 201 (C30_single_chip_is_reported_refuted, C30_repair_of_single_chip_refuted); proved for all other versions."
  },
  {
   "property": "C31",
   "status": "proved",
   "theorems": [
    "C31_ends",
    "C31_each_round_is_smaller"
   ],
   "note": "machine_repair as an inductive big step relation; total, deterministic. Python's recursion limit is not modelled."
  },
  {
   "property": "C32",
   "status": "proved",
   "theorems": [
    "C32_result_is_clean"
   ],
   "note": ""
  },
  {
   "property": "C33",
   "status": "proved",
   "theorems": [
    "C33_only_removes",
    "C33_original_iff_clean",
    "C33_new_machine",
    "C33_sound_parts_stay",
    "C33_result_is_a_sound_part",
    "C33_parent_is_forgotten_refuted",
    "C33_less_in_less_out",
    "C33_repairing_again",
    "C33_order_of_chips"
   ],
   "note": "A rebuilt chip forgets its parent: C33_parent_is_forgotten_refuted."
  },
  {
   "property": "C34",
   "status": "proved",
   "theorems": [
    "C34_unexpected_raises",
    "C34_only_expected_links_go",
    "C34_expected_is_silent"
   ],
   "note": "removed_chips is a collection (not a one-shot iterator). C34_expected_is_silent gives the no-exception side for valid machines with links to neighbours."
  },
  {
   "property": "C35",
   "status": "proved",
   "theorems": [
    "C35_when_written",
    "C35_read_back",
    "C35_round_trip",
    "C35_virtual_round_trip",
    "C35_any_description",
    "C35_core_numbers_refuted",
    "C35_parent_and_entries_refuted",
    "C35_written_again",
    "C35_read_machines_survive",
    "C35_repaired_round_trip"
   ],
   "note": "Descriptions are JSON values here; the files as texts are in C86. Core id gaps, parent links and entries over a Java int do not come back: C35_core_numbers_refuted, C35_parent_and_entries_refuted; C35_read_back says exactly what comes back."
  },
  {
   "property": "C36",
   "status": "proved",
   "theorems": [
    "C36_route_bits",
    "C36_single_ids",
    "C36_ids_round_trip",
    "C36_route_round_trip",
    "C36_reading_changes_nothing"
   ],
   "note": "Ids are ints; a collection is the list of its elements in iteration order."
  },
  {
   "property": "C37",
   "status": "proved",
   "theorems": [
    "C37_entry_to_route",
    "C37_agrees_with_the_entry",
    "C37_inverse"
   ],
   "note": ""
  },
  {
   "property": "C38",
   "status": "proved",
   "theorems": [
    "C38_merge_joins",
    "C38_merge_laws",
    "C38_merge_multicast",
    "C38_merged_multicast",
    "C38_unroutable_refuted"
   ],
   "note": "Refuted outside of the id ranges: C38_unroutable_refuted."
  },
  {
   "property": "C39",
   "status": "proved",
   "theorems": [
    "C39_key_inside_mask",
    "C39_bits"
   ],
   "note": ""
  },
  {
   "property": "C40",
   "status": "proved",
   "theorems": [
    "C40_defaultable",
    "C40_one_opposite_link",
    "C40_no_processors_refuted",
    "C40_duplicates_ignored_refuted"
   ],
   "note": "Documented claims refuted: C40_no_processors_refuted, C40_duplicates_ignored_refuted; the exact condition is C40_defaultable."
  },
  {
   "property": "C41",
   "status": "proved",
   "theorems": [
    "C41_equality_and_hash",
    "C41_equal_means_same",
    "C41_equal_entries",
    "C41_equal_unroutable_refuted",
    "C41_equal_tags_same_destination_refuted"
   ],
   "note": "hash(tuple) is any function of the tuple. Refuted: C41_equal_unroutable_refuted, C41_equal_tags_same_destination_refuted."
  },
  {
   "property": "C42",
   "status": "proved",
   "theorems": [
    "C42_for_chip",
    "C42_subset_object",
    "C42_set_of_cores",
    "C42_add_processor",
    "C42_no_sharing",
    "C42_isolated"
   ],
   "note": "Object identity is modelled: subsets are objects on a heap. repr and == of CoreSubset (which depend on spinn_utilities' OrderedSet) are not modelled."
  },
  {
   "property": "C43",
   "status": "proved",
   "theorems": [
    "C43_intersection",
    "C43_subset_intersection"
   ],
   "note": ""
  },
  {
   "property": "C44",
   "status": "proved",
   "theorems": [
    "C44_adds_raise",
    "C44_frozen_keeps_its_cores",
    "C44_immutable_refuted"
   ],
   "note": "Deep immutability is refuted: C44_immutable_refuted."
  },
  {
   "property": "C45",
   "status": "proved",
   "theorems": [
    "C45_down_chips",
    "C45_down_links",
    "C45_one_core_item",
    "C45_documented_core_text",
    "C45_down_cores",
    "C45_wrong_number_of_fields",
    "C45_documented_example_refuted"
   ],
   "note": "Both directions for chips, links and cores; the documented example of IgnoreCore.parse_string is refused (C45_documented_example_refuted)."
  },
  {
   "property": "C46",
   "status": "proved",
   "theorems": [
    "C46_virtual_core",
    "C46_distinct_physical_distinct_virtual",
    "C46_onto_the_virtual_ids_refuted"
   ],
   "note": "Not onto 0..17: C46_onto_the_virtual_ids_refuted."
  },
  {
   "property": "C47",
   "status": "proved",
   "theorems": [
    "C47_router_is_a_map_of_links",
    "C47_new_router"
   ],
   "note": ""
  },
  {
   "property": "C48",
   "status": "proved",
   "theorems": [
    "C48_tags",
    "C48_processors"
   ],
   "note": ""
  },
  {
   "property": "C49",
   "status": "proved",
   "theorems": [
    "C49_keeps_existing",
    "C49_get_machine",
    "C49_generator_must_set",
    "C49_generator_without_machine",
    "C49_get_chip_at",
    "C49_read_only",
    "C49_mock",
    "C49_total"
   ],
   "note": "Histories are traces of the calls with their results, generators being arbitrary runs of further calls. Machines are values: changes to a Machine object after set_machine are not seen. The status of UtilsDataView is part of every call's surroundings."
  },
  {
   "property": "C50",
   "status": "proved",
   "theorems": [
    "C50_when_set",
    "C50_core_id_exact",
    "C50_physical_string",
    "C50_always_exclusive_refuted",
    "C50_set_once",
    "C50_exclusive",
    "C50_core_id",
    "C50_quad"
   ],
   "note": "Exclusivity without the condition on the history is refuted: C50_always_exclusive_refuted."
  },
  {
   "property": "C51",
   "status": "proved",
   "theorems": [
    "C51_monitor_counts",
    "C51_frame"
   ],
   "note": ""
  },
  {
   "property": "C52",
   "status": "proved",
   "theorems": [
    "C52_exact",
    "C52_version_fixed",
    "C52_version_first"
   ],
   "note": ""
  },
  {
   "property": "C53",
   "status": "proved",
   "theorems": [
    "C53_entry_text",
    "C53_equal_entries",
    "C53_high_bits_refuted",
    "C53_multicast_text",
    "C53_exact_text",
    "C53_hexadecimal_texts"
   ],
   "note": ""
  },
  {
   "property": "C54",
   "status": "proved",
   "theorems": [
    "C54_link_text",
    "C54_router_text",
    "C54_spinnaker_link_text_refuted",
    "C54_spinnaker_link_text",
    "C54_iptag_text",
    "C54_reverse_iptag_text",
    "C54_core_subsets_text"
   ],
   "note": ""
  },
  {
   "property": "C55",
   "status": "proved",
   "theorems": [
    "C55_where_is",
    "C55_no_boot_chip",
    "C55_answers_differ",
    "C55_virtual_machine"
   ],
   "note": ""
  },
  {
   "property": "C56",
   "status": "proved",
   "theorems": [
    "C56_machine_text",
    "C56_class_in_the_text",
    "C56_summary",
    "C56_summary_raises"
   ],
   "note": ""
  },
  {
   "property": "C57",
   "status": "proved",
   "theorems": [
    "C57_idle_energy",
    "C57_raises",
    "C57_more_is_more"
   ],
   "note": ""
  },
  {
   "property": "C58",
   "status": "proved",
   "theorems": [
    "C58_active_energy",
    "C58_at_least_idle",
    "C58_more_is_more",
    "C58_unknown_packets",
    "C58_only_seconds_count",
    "C58_spinnaker2"
   ],
   "note": ""
  },
  {
   "property": "C59",
   "status": "proved",
   "theorems": [
    "C59_equality",
    "C59_same_limits_refuted",
    "C59_hashable_refuted"
   ],
   "note": ""
  },
  {
   "property": "C60",
   "status": "proved",
   "theorems": [
    "C60_what_is_read",
    "C60_one_chip_per_item",
    "C60_refusals",
    "C60_numbers_as_text"
   ],
   "note": ""
  },
  {
   "property": "C61",
   "status": "proved",
   "theorems": [
    "C61_chips_of_a_board",
    "C61_limits_of_chips",
    "C61_spinnaker_links_leave_the_board",
    "C61_clock_speeds_in_hz_refuted"
   ],
   "note": ""
  },
  {
   "property": "C62",
   "status": "proved",
   "theorems": [
    "C62_one_link",
    "C62_as_if_added_like_that",
    "C62_links_count",
    "C62_links_count_is_the_links_refuted"
   ],
   "note": ""
  },
  {
   "property": "C63",
   "status": "proved",
   "theorems": [
    "C63_what_is_written"
   ],
   "note": ""
  },
  {
   "property": "C64",
   "status": "proved",
   "theorems": [
    "C64_no_shorter_way",
    "C64_distance_is_walked",
    "C64_distance_is_walked_everywhere_refuted"
   ],
   "note": "Equality for several boards that do not wrap in both dimensions is refuted: C64_distance_is_walked_everywhere_refuted."
  },
  {
   "property": "C65",
   "status": "proved",
   "theorems": [
    "C65_connected",
    "C65_connected_with_faults_refuted"
   ],
   "note": "With chips down: C65_connected_with_faults_refuted."
  },
  {
   "property": "C66",
   "status": "proved",
   "theorems": [
    "C66_order_and_repetition",
    "C66_only_the_sets"
   ],
   "note": ""
  },
  {
   "property": "C67",
   "status": "proved",
   "theorems": [
    "C67_more_faults_less_machine",
    "C67_validity_is_monotone_refuted",
    "C67_repaired"
   ],
   "note": "Validity is not monotone: C67_validity_is_monotone_refuted."
  },
  {
   "property": "C68",
   "status": "proved",
   "theorems": [
    "C68_order_of_adding",
    "C68_no_exception"
   ],
   "note": ""
  },
  {
   "property": "C69",
   "status": "proved",
   "theorems": [
    "C69_ways_back",
    "C69_repaired_ways_back",
    "C69_ways_back_without_repair_refuted"
   ],
   "note": "The restriction to machines without one way links is needed: C69_ways_back_without_repair_refuted."
  },
  {
   "property": "C70",
   "status": "proved",
   "theorems": [
    "C70_ids_of_the_file",
    "C70_script_prints_the_table"
   ],
   "note": ""
  },
  {
   "property": "C71",
   "status": "proved",
   "theorems": [
    "C71_fpga_links_face_each_other",
    "C71_links_between_boards_are_the_fpga_links",
    "C71_the_other_end"
   ],
   "note": ""
  },
  {
   "property": "C72",
   "status": "proved",
   "theorems": [
    "C72_distance_to_ethernet",
    "C72_at_most_seven",
    "C72_nearest_refuted"
   ],
   "note": "That the Ethernet chip of a chip is the nearest one is refuted: C72_nearest_refuted."
  },
  {
   "property": "C73",
   "status": "proved",
   "theorems": [
    "C73_chips",
    "C73_cores",
    "C73_links",
    "C73_all_around",
    "C73_boards",
    "C73_small_boards"
   ],
   "note": ""
  },
  {
   "property": "C74",
   "status": "proved",
   "theorems": [
    "C74_still_connected",
    "C74_scattered_chips"
   ],
   "note": ""
  },
  {
   "property": "C75",
   "status": "proved",
   "theorems": [
    "C75_any_number_of_calls_with_parents",
    "C75_same_calls",
    "C75_off",
    "C75_four_calls",
    "C75_virtual",
    "C75_four_calls_with_parents_refuted"
   ],
   "note": "With recorded parents the bound fails (C75_four_calls_with_parents_refuted) and no other bound holds: C75_any_number_of_calls_with_parents."
  },
  {
   "property": "C76",
   "status": "proved",
   "theorems": [
    "C76_what_is_left",
    "C76_virtual"
   ],
   "note": ""
  },
  {
   "property": "C77",
   "status": "proved",
   "theorems": [
    "C77_when_it_returns",
    "C77_virtual"
   ],
   "note": ""
  },
  {
   "property": "C78",
   "status": "proved",
   "theorems": [
    "C78_one_message_per_defect",
    "C78_when_raised",
    "C78_messages_differ",
    "C78_addresses_tell_boards",
    "C78_messages_about_parents_differ_refuted"
   ],
   "note": "That messages about missing parents differ is refuted: C78_messages_about_parents_differ_refuted."
  },
  {
   "property": "C79",
   "status": "proved",
   "theorems": [
    "C79_text_is_true",
    "C79_text_names_the_chip",
    "C79_virtual_machine"
   ],
   "note": ""
  },
  {
   "property": "C80",
   "status": "proved",
   "theorems": [
    "C80_repaired",
    "C80_unrepaired",
    "C80_the_text",
    "C80_nothing_left"
   ],
   "note": ""
  },
  {
   "property": "C81",
   "status": "proved",
   "theorems": [
    "C81_nearest_copy",
    "C81_wrapping_never_lengthens",
    "C81_largest_distance",
    "C81_links_between_chips"
   ],
   "note": ""
  },
  {
   "property": "C82",
   "status": "proved",
   "theorems": [
    "C82_straight_on",
    "C82_every_straight_way",
    "C82_straight_is_shortest",
    "C82_comes_back"
   ],
   "note": ""
  },
  {
   "property": "C83",
   "status": "proved",
   "theorems": [
    "C83_same_outcome",
    "C83_json_and_repair",
    "C83_virtual_machines"
   ],
   "note": ""
  },
  {
   "property": "C84",
   "status": "proved",
   "theorems": [
    "C84_every_machine",
    "C84_same_outcome",
    "C84_others_unchanged",
    "C84_same_object_iff_links_kept",
    "C84_links_added_later",
    "C84_independent_copy_refuted"
   ],
   "note": "That the repaired machine is an independent copy is refuted: C84_independent_copy_refuted. A Router object shared by two Chip objects is not modelled."
  },
  {
   "property": "C85",
   "status": "proved",
   "theorems": [
    "C85_one_meaning",
    "C85_when_created",
    "C85_what_the_text_takes_away"
   ],
   "note": ""
  },
  {
   "property": "C86",
   "status": "proved",
   "theorems": [
    "C86_what_is_read",
    "C86_decimals_are_rounded",
    "C86_dumped_and_loaded",
    "C86_file_written",
    "C86_file_read",
    "C86_through_the_file",
    "C86_virtual_file",
    "C86_refused",
    "C86_file_refused"
   ],
   "note": "json.dump and json.load are modelled after CPython's json package (trusted reading of its source); characters beyond 255 are outside (json_load gives None); a decimal fraction is rounded to the nearest double, which is what CPython's float() documents; OS errors other than a missing file are not modelled."
  },
  {
   "property": "C87",
   "status": "proved",
   "theorems": [
    "C87_objects_change_by_the_program_only",
    "C87_object_held",
    "C87_same_object_given",
    "C87_as_values",
    "C87_exclusive_refuted"
   ],
   "note": "A change of a Machine is any call on the object (OChangeMachine gives the state it leaves). C87_exclusive_refuted: filling an empty map of physical ids later gets round the check of C50."
  },
  {
   "property": "C88",
   "status": "proved",
   "theorems": [
    "C88_refused_with_the_first_reason",
    "C88_accepted_without_a_reason",
    "C88_same_factory",
    "C88_size_text",
    "C88_missing_setting_named_refuted"
   ],
   "note": "C88_missing_setting_named_refuted: the texts about a missing width and a missing height are swapped in the constructors (never seen through version_factory)."
  },
  {
   "property": "C89",
   "status": "proved",
   "theorems": [
    "C89_log",
    "C89_cores_warning_is_right",
    "C89_sdram_warning_is_right_refuted"
   ],
   "note": "C89_sdram_warning_is_right_refuted: 'Max SDRAM per chip reduced to' gives the number before the reduction."
  },
  {
   "property": "C90",
   "status": "proved",
   "theorems": [
    "C90_log",
    "C90_tally_determined",
    "C90_lines_determined",
    "C90_same_log"
   ],
   "note": ""
  },
  {
   "property": "C91",
   "status": "proved",
   "theorems": [
    "C91_same_parsers",
    "C91_cores_text",
    "C91_first_wrong_item",
    "C91_fault_or_item"
   ],
   "note": ""
  },
  {
   "property": "C92",
   "status": "proved",
   "theorems": [
    "C92_same_lookups",
    "C92_lookup_texts"
   ],
   "note": ""
  },
  {
   "property": "C93",
   "status": "proved",
   "theorems": [
    "C93_same_calls",
    "C93_repeated_link",
    "C93_repeated_chip",
    "C93_key_outside_mask",
    "C93_merge",
    "C93_texts"
   ],
   "note": ""
  },
  {
   "property": "C94",
   "status": "proved",
   "theorems": [
    "C94_same_reader",
    "C94_first_wrong_field",
    "C94_nothing_wrong"
   ],
   "note": ""
  },
  {
   "property": "C95",
   "status": "proved",
   "theorems": [
    "C95_quoted",
    "C95_read_back"
   ],
   "note": ""
  },
  {
   "property": "C96",
   "status": "proved",
   "theorems": [
    "C96_same_routes",
    "C96_listed_once",
    "C96_ids_out_of_range",
    "C96_entry"
   ],
   "note": ""
  },
  {
   "property": "C97",
   "status": "proved",
   "theorems": [
    "C97_same_machine",
    "C97_first_problem",
    "C97_is_told",
    "C97_nothing_wrong",
    "C97_one_answer"
   ],
   "note": ""
  },
  {
   "property": "C98",
   "status": "proved",
   "theorems": [
    "C98_machine_iterators",
    "C98_as_many_chips",
    "C98_router_iterators",
    "C98_ethernet_chips",
    "C98_existing_next",
    "C98_existing_all",
    "C98_down_next",
    "C98_down_all",
    "C98_board_undisturbed",
    "C98_board_chips",
    "C98_one_way_from_first",
    "C98_one_way_true",
    "C98_one_way_grown",
    "C98_one_way_quiet",
    "C98_fill_the_board",
    "C98_adding_in_a_loop",
    "C98_mend_loop"
   ],
   "note": ""
  },
  {
   "property": "C99",
   "status": "proved",
   "theorems": [
    "C99_same_view",
    "C99_set_map",
    "C99_get_version",
    "C99_both_maps",
    "C99_second_map",
    "C99_what_is_missing",
    "C99_get_machine",
    "C99_wrong_types"
   ],
   "note": ""
  },
  {
   "property": "C100",
   "status": "proved",
   "theorems": [
    "C100_first_part",
    "C100_something_after",
    "C100_states",
    "C100_stopped_between",
    "C100_old_new_or_refused",
    "C100_run_after_run",
    "C100_never_opened"
   ],
   "note": ""
  },
  {
   "property": "C101",
   "status": "proved",
   "theorems": [
    "C101_subsets_iterator",
    "C101_cores_iterator",
    "C101_cores_iterator_ordered",
    "C101_as_many",
    "C101_adding_a_subset",
    "C101_adding_a_subset_ordered",
    "C101_merging",
    "C101_with_itself",
    "C101_new_chip_in_a_loop",
    "C101_core_on_every_chip"
   ],
   "note": ""
  },
  {
   "property": "C102",
   "status": "proved",
   "theorems": [
    "C102_equal",
    "C102_equivalence",
    "C102_made",
    "C102_intersect",
    "C102_collections",
    "C102_copy",
    "C102_text",
    "C102_equal_same_text_refuted",
    "C102_keys",
    "C102_changed_key"
   ],
   "note": ""
  },
  {
   "property": "C103",
   "status": "proved",
   "theorems": [
    "C103_own_lists",
    "C103_names",
    "C103_group_is_a_version",
    "C103_all_outcomes",
    "C103_repeatable",
    "C103_read_only_refuted"
   ],
   "note": ""
  }
 ]
}