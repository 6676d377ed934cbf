{
 "C02": "The docstring's sign convention for z is refuted by C02_docstring_sign_refuted; the convention in the property is proved.",
 "C12": "Binary64 division, sqrt and ceil are modelled exactly. True for n <= 3*2^52; C12_rounding_loses_a_board_refuted gives n = 3*2^52+1 where the rounding loses a board.",
 "C20": "Routers are immutable values in the model: counts after a later router.add_link on a chip already added are outside the claim (the code's counters do not follow such changes).",
 "C26": "On wrapping machines the documented meaning of the neighbour reports fails across the seam: C26_documented_meaning_across_the_seam_refuted.",
 "C27": "The name and docstring promise the minimum; refuted by C27_is_not_the_minimum_refuted.",
 "C17": "ASCII strings. Exact set of accepted texts and the exception for every other text.",
 "C18": "Exact condition. A consistent cfg can still be refused: version 248 with its own size (C18_consistent_settings_accepted_refuted).",
 "C45": "Both directions for chips, links and cores; the documented example of IgnoreCore.parse_string is refused (C45_documented_example_refuted).",
 "C46": "Not onto 0..17: C46_onto_the_virtual_ids_refuted.",
 "C69": "The restriction to machines without one way links is needed: C69_ways_back_without_repair_refuted.",
 "C30": "Refuted for version 201 (C30_single_chip_is_reported_refuted, C30_repair_of_single_chip_refuted); proved for all other versions.",
 "C28": "Exact success conditions, chips and fields, with and without validation.",
 "C29": "For all down link sets.",
 "C31": "machine_repair as an inductive big step relation; total, deterministic. Python's recursion limit is not modelled.",
 "C33": "A rebuilt chip forgets its parent: C33_parent_is_forgotten_refuted.",
 "C34": "removed_chips is a collection (not a one-shot iterator). C34_expected_is_silent gives the no-exception side for valid machines with links to neighbours.",
 "C13": "For n up to 3*2^52 boards. Refuted with a cfg limit on cores (C13_core_limit_ignored_refuted) or too many monitors (C13_too_many_monitors_refuted).",
 "C14": "Sizes below 2^53; beyond that refuted by C14_rounding_refuted.",
 "C35": "Descriptions are JSON values here; the files as texts are in C86. Core id gaps, parent links and entries over a Java int do not come back: C35_core_numbers_refuted, C35_parent_and_entries_refuted; C35_read_back says exactly what comes back.",
 "C36": "Ids are ints; a collection is the list of its elements in iteration order.",
 "C38": "Refuted outside of the id ranges: C38_unroutable_refuted.",
 "C40": "Documented claims refuted: C40_no_processors_refuted, C40_duplicates_ignored_refuted; the exact condition is C40_defaultable.",
 "C41": "hash(tuple) is any function of the tuple. Refuted: C41_equal_unroutable_refuted, C41_equal_tags_same_destination_refuted.",
 "C42": "Object identity is modelled: subsets are objects on a heap. repr and == of CoreSubset (which depend on spinn_utilities' OrderedSet) are not modelled.",
 "C44": "Deep immutability is refuted: C44_immutable_refuted.",
 "C49": "Histories are traces of the calls with their results, generators being arbitrary runs of further calls. Machines are values: changes to a Machine object after set_machine are not seen. The status of UtilsDataView is part of every call's surroundings.",
 "C50": "Exclusivity without the condition on the history is refuted: C50_always_exclusive_refuted.",
 "C64": "Equality for several boards that do not wrap in both dimensions is refuted: C64_distance_is_walked_everywhere_refuted.",
 "C65": "With chips down: C65_connected_with_faults_refuted.",
 "C67": "Validity is not monotone: C67_validity_is_monotone_refuted.",
 "C72": "That the Ethernet chip of a chip is the nearest one is refuted: C72_nearest_refuted.",
 "C75": "With recorded parents the bound fails (C75_four_calls_with_parents_refuted) and no other bound holds: C75_any_number_of_calls_with_parents.",
 "C78": "That messages about missing parents differ is refuted: C78_messages_about_parents_differ_refuted.",
 "C84": "That the repaired machine is an independent copy is refuted: C84_independent_copy_refuted. A Router object shared by two Chip objects is not modelled.",
 "C86": "json.dump and json.load are modelled after CPython's json package (trusted reading of its source); characters beyond 255 are outside (json_load gives None); a decimal fraction is rounded to the nearest double, which is what CPython's float() documents; OS errors other than a missing file are not modelled.",
 "C87": "A change of a Machine is any call on the object (OChangeMachine gives the state it leaves). C87_exclusive_refuted: filling an empty map of physical ids later gets round the check of C50.",
 "C88": "C88_missing_setting_named_refuted: the texts about a missing width and a missing height are swapped in the constructors (never seen through version_factory).",
 "C89": "C89_sdram_warning_is_right_refuted: 'Max SDRAM per chip reduced to' gives the number before the reduction."
}