{
 "claims": [
  {
   "property": "C01",
   "status": "proved",
   "theorems": [
    "C01_jump_is_repeated_next_32",
    "C01_jump_is_repeated_next_64"
   ],
   "note": ""
  },
  {
   "property": "C02",
   "status": "proved",
   "theorems": [
    "C02_const_jump_is_jump_32",
    "C02_const_jump_is_jump_64"
   ],
   "note": ""
  },
  {
   "property": "C03",
   "status": "proved",
   "theorems": [
    "C03_reverse_undoes_forward_32",
    "C03_reverse_undoes_forward_64",
    "C03_even_multiplier_rejected"
   ],
   "note": "Quantified over the Python minor version, i.e. over both implementations of mod_inv."
  },
  {
   "property": "C04",
   "status": "proved",
   "theorems": [
    "C04_out_of_range_jump_32",
    "C04_out_of_range_jump_64"
   ],
   "note": "Also gives the seed left behind by the failed jump."
  },
  {
   "property": "C05",
   "status": "proved",
   "theorems": [
    "C05_full_period_32",
    "C05_full_period_64"
   ],
   "note": ""
  },
  {
   "property": "C06",
   "status": "proved",
   "theorems": [
    "C06_next_rand_modulo",
    "C06_next_rand_reciprocal",
    "C06_next_rand_multiplication_shift",
    "C06_no_distribution"
   ],
   "note": ""
  },
  {
   "property": "C07",
   "status": "proved",
   "theorems": [
    "C07_const_rand_is_next_rand_32",
    "C07_const_rand_is_next_rand_64"
   ],
   "note": ""
  },
  {
   "property": "C08",
   "status": "proved",
   "theorems": [
    "C08_reciprocal_reaches_all_upto_256",
    "C08_reciprocal_257_never_256",
    "C08_modulo_reaches_all",
    "C08_multiplication_shift_reaches_all"
   ],
   "note": ""
  },
  {
   "property": "C09",
   "status": "proved",
   "theorems": [
    "C09_degenerate_maxima",
    "C09_multiplication_shift_degenerate"
   ],
   "note": "Finding: reciprocal division with maximum=1 raises under numba; with maximum=0 and no numba it returns the raw rand."
  },
  {
   "property": "C10",
   "status": "proved",
   "theorems": [
    "C10_mod_inv_correct",
    "C10_mod_inv_versions_agree",
    "C10_inverse_unique"
   ],
   "note": ""
  },
  {
   "property": "C11",
   "status": "proved",
   "theorems": [
    "C11_mt_outputs_are_MT19937",
    "C11_MT19937_sequence_exists_unique",
    "C11_mt_histories"
   ],
   "note": ""
  },
  {
   "property": "C12",
   "status": "proved",
   "theorems": [
    "C12_mt_advance_skips_outputs",
    "C12_mt_advance_wrap_refuted"
   ],
   "note": "The bound on n without numba is exact: beyond it advance wraps (C12_mt_advance_wrap_refuted)."
  },
  {
   "property": "C13",
   "status": "proved",
   "theorems": [
    "C13_mt_re_init_forgets",
    "C13_sfmt_re_init_forgets",
    "C13_tinymt_re_init_forgets",
    "C13_xorshift_re_init_forgets",
    "C13_xoroshiro_re_init_forgets",
    "C13_splitmix_re_init_forgets",
    "C13_lcrng_re_init_forgets"
   ],
   "note": ""
  },
  {
   "property": "C14",
   "status": "proved",
   "theorems": [
    "C14_sfmt_outputs_are_SFMT19937",
    "C14_SFMT19937_sequence_exists_unique",
    "C14_sfmt_histories"
   ],
   "note": ""
  },
  {
   "property": "C15",
   "status": "proved",
   "theorems": [
    "C15_sfmt_ir_shuffle_equals_python"
   ],
   "note": ""
  },
  {
   "property": "C16",
   "status": "proved",
   "theorems": [
    "C16_sfmt_advance_skips_outputs",
    "C16_sfmt_advance_wrap_refuted"
   ],
   "note": "The bound on n without numba is exact: beyond it advance wraps (C16_sfmt_advance_wrap_refuted)."
  },
  {
   "property": "C17",
   "status": "proved",
   "theorems": [
    "C17_sfmt_certified"
   ],
   "note": ""
  },
  {
   "property": "C18",
   "status": "proved",
   "theorems": [
    "C18_mt_in_bounds",
    "C18_sfmt_in_bounds",
    "C18_sfmt_touches_only_its_array"
   ],
   "note": ""
  },
  {
   "property": "C19",
   "status": "proved",
   "theorems": [
    "C19_tinymt_follows_reference",
    "C19_tinymt_histories"
   ],
   "note": ""
  },
  {
   "property": "C20",
   "status": "partial",
   "theorems": [
    "C20_tinymt_output_width",
    "C20_tinymt_numba_output_exceeds_32_bits_refuted"
   ],
   "note": "Finding: false under numba. temper() keeps the carry of a 64-bit sum, so next() can return 33-bit values (seed 775). Proved: exact value in both modes, low 32 bits agree."
  },
  {
   "property": "C21",
   "status": "proved",
   "theorems": [
    "C21_tinymt_never_zero",
    "C21_tinymt_shuffle_injective",
    "C21_tinymt_shuffle_surjective",
    "C21_tinymt_certification_never_fires"
   ],
   "note": ""
  },
  {
   "property": "C22",
   "status": "partial",
   "theorems": [
    "C22_mt_next_rand_in_range",
    "C22_mt_next_rand_mod_in_range",
    "C22_sfmt_next_rand_in_range",
    "C22_tinymt_rands_in_range",
    "C22_tinymt_numba_rands",
    "C22_tinymt_numba_rand_out_of_range_refuted"
   ],
   "note": "Proved for MT, SFMT and TinyMT without numba. Finding: false for TinyMT under numba, where next_rand(100) can return 107 because next() can exceed 32 bits; exact condition proved."
  },
  {
   "property": "C23",
   "status": "proved",
   "theorems": [
    "C23_xorshift_previous_undoes_next",
    "C23_xorshift_next_undoes_previous",
    "C23_xorshift_objects_hold_words"
   ],
   "note": ""
  },
  {
   "property": "C24",
   "status": "proved",
   "theorems": [
    "C24_xorshift_next_rand",
    "C24_xorshift_next_randrange",
    "C24_xorshift_next_alternate_rand"
   ],
   "note": ""
  },
  {
   "property": "C25",
   "status": "partial",
   "theorems": [
    "C25_xorshift_float_range_reaches_maximum_refuted",
    "C25_xorshift_float_range_below_minimum_refuted",
    "C25_xorshift_float_mixture_partial",
    "C25_xorshift_float_range_partial"
   ],
   "note": "Finding: false at both ends. When the low 23 bits of the output are zero the result is exactly maximum, and for bounds close to each other (100 and 101) the result can be below minimum. Proved instead: for all binary32 bounds the result is finite and within 2^-23(|minimum|+|maximum|)+2^-149 of the mixture of the bounds; and it lies in [minimum, maximum], reaching maximum only for zero low bits, whenever 3|minimum| <= 4(maximum-minimum) and maximum-minimum >= 2^-100. Missing: the range for narrower bounds, where it fails."
  },
  {
   "property": "C26",
   "status": "proved",
   "theorems": [
    "C26_xoroshiro_next_previous_inverse",
    "C26_xoroshiro_objects_hold_words"
   ],
   "note": ""
  },
  {
   "property": "C27",
   "status": "proved",
   "theorems": [
    "C27_bit_mask_is_least_cover"
   ],
   "note": ""
  },
  {
   "property": "C28",
   "status": "proved",
   "theorems": [
    "C28_rejection_returns_first_accepted_draw",
    "C28_rejection_power_of_two",
    "C28_rejection_of_zero_never_ends"
   ],
   "note": "next_rand(0), outside the range, never ends (C28_rejection_of_zero_never_ends)."
  },
  {
   "property": "C29",
   "status": "proved",
   "theorems": [
    "C29_splitmix_seeding",
    "C29_splitmix_injective"
   ],
   "note": ""
  },
  {
   "property": "C30",
   "status": "proved",
   "theorems": [
    "C30_xorshift_advance",
    "C30_xoroshiro_advance",
    "C30_tinymt_advance",
    "C30_xorshift_bijective",
    "C30_xoroshiro_bijective"
   ],
   "note": ""
  },
  {
   "property": "C31",
   "status": "proved",
   "theorems": [
    "C31_rnglist_is_sliding_window",
    "C31_rnglist_numba_large_size_refuted"
   ],
   "note": "With numba proved for sizes up to 65536; beyond that the 16-bit pointer wraps (C31_rnglist_numba_large_size_refuted)."
  },
  {
   "property": "C32",
   "status": "proved",
   "theorems": [
    "C32_rnglist_sizes"
   ],
   "note": ""
  },
  {
   "property": "C33",
   "status": "proved",
   "theorems": [
    "C33_fnv_recurrences",
    "C33_fnv_incremental",
    "C33_fnv_one_character",
    "C33_fnv_range"
   ],
   "note": ""
  },
  {
   "property": "C34",
   "status": "proved",
   "theorems": [
    "C34_seed_is_sha1",
    "C34_other_games_actual"
   ],
   "note": ""
  },
  {
   "property": "C35",
   "status": "proved",
   "theorems": [
    "C35_precompute_reused",
    "C35_stale_alpha_is_wrong"
   ],
   "note": ""
  },
  {
   "property": "C36",
   "status": "proved",
   "theorems": [
    "C36_setters",
    "C36_injective",
    "C36_bad_year_raises"
   ],
   "note": ""
  },
  {
   "property": "C37",
   "status": "proved",
   "theorems": [
    "C37_change_endian_reverses_bytes",
    "C37_change_endian_involution"
   ],
   "note": ""
  },
  {
   "property": "C38",
   "status": "proved",
   "theorems": [
    "C38_rotations_u32",
    "C38_rotations_u64",
    "C38_rotations_add_u32",
    "C38_rotations_add_u64",
    "C38_rotations_identity_u32",
    "C38_rotations_identity_u64"
   ],
   "note": "With numba 64-bit values must not be rotated by 0 or 64 (shift by 64); this is stated by rot_count_ok and C38_rotations_identity_u64."
  },
  {
   "property": "C39",
   "status": "proved",
   "theorems": [
    "C39_hex_32_renders",
    "C39_hex_32_injective",
    "C39_hex_32_too_large"
   ],
   "note": "Without numba larger numbers raise IndexError."
  },
  {
   "property": "C40",
   "status": "proved",
   "theorems": [
    "C40_stat_modifiers_exact"
   ],
   "note": ""
  },
  {
   "property": "C41",
   "status": "partial",
   "theorems": [
    "C41_natures_actual",
    "C41_natures_partial",
    "C41_natures_refuted",
    "C41_first_three_partial",
    "C41_other_natures_refuted"
   ],
   "note": "Finding: false. The modifiers of special attack, special defense and speed are applied to each other's stats. Proved: the exact stats, correct for exactly 7 of the 25 natures, and HP, attack and defense for all."
  },
  {
   "property": "C42",
   "status": "proved",
   "theorems": [
    "C42_gender",
    "C42_shiny",
    "C42_unown",
    "C42_one_letter"
   ],
   "note": ""
  },
  {
   "property": "C43",
   "status": "proved",
   "theorems": [
    "C43_characteristic_and_hidden_power"
   ],
   "note": "Finding: without numba hidden_power_strength is stored as the float before truncation."
  },
  {
   "property": "C44",
   "status": "partial",
   "theorems": [
    "C44_slot_table_actual",
    "C44_slot_table_refuted",
    "C44_greater_table_actual"
   ],
   "note": "Finding: false. Every slot but the last ends one roll early, so the first slot has one roll too few and the last one too many. Proved: the exact table for all percentage lists, in both directions."
  },
  {
   "property": "C45",
   "status": "proved",
   "theorems": [
    "C45_slot_of_the_area",
    "C45_slot_with_lead",
    "C45_slot_by_roll"
   ],
   "note": ""
  },
  {
   "property": "C46",
   "status": "proved",
   "theorems": [
    "C46_level",
    "C46_level_pressure"
   ],
   "note": ""
  },
  {
   "property": "C47",
   "status": "partial",
   "theorems": [
    "C47_modified_slots_partial",
    "C47_static_actual",
    "C47_static_refuted",
    "C47_bundled_refuted"
   ],
   "note": "Proved for all leads but Static. Finding: Static looks for type 13, which is Psychic in the bundled personal tables (Electric is 12). In the grass of Emerald five areas with Electric types get no preferred slot and 21 areas get Psychic ones."
  },
  {
   "property": "C48",
   "status": "partial",
   "theorems": [
    "C48_encounter_rate_partial",
    "C48_encounter_rate_actual",
    "C48_encounter_rate_refuted"
   ],
   "note": "Finding: false for land and fishing, whose rates are swapped. Proved for rock smash and surfing."
  },
  {
   "property": "C49",
   "status": "partial",
   "theorems": [
    "C49_each_advance_partial",
    "C49_split_partial",
    "C49_prefix_actual",
    "C49_rock_smash_refuted"
   ],
   "note": "Proved for everything but rock smash in Ruby, Sapphire and Emerald. Finding: there the first failed check stops the generator, so no later advance has a state."
  },
  {
   "property": "C50",
   "status": "proved",
   "theorems": [
    "C50_states_are_drawn",
    "C50_states_are_coherent",
    "C50_constructor",
    "C50_safari",
    "C50_shiny_for_the_trainer"
   ],
   "note": "The stats of a state are those of C41_natures_actual; which slot a roll selects is as in C44; Cute Charm is rolled as in C52."
  },
  {
   "property": "C51",
   "status": "partial",
   "theorems": [
    "C51_search_ends_partial",
    "C51_satisfiable_ends_partial",
    "C51_search_forever_actual",
    "C51_cute_charm_hangs_actual",
    "C51_search_ends_refuted"
   ],
   "note": "Proved without Cute Charm, and with it whenever the condition can be met. Finding: with the male Cute Charm lead and an all-male species two charm rolls out of three never end."
  },
  {
   "property": "C52",
   "status": "partial",
   "theorems": [
    "C52_cute_charm_actual",
    "C52_cute_charm_refuted"
   ],
   "note": "Finding: false. The condition is inverted: Cute Charm has no effect on species with two genders."
  },
  {
   "property": "C53",
   "status": "proved",
   "theorems": [
    "C53_species_and_form",
    "C53_pack_unpack"
   ],
   "note": "C53_species_and_form is end to end: from the JSON entry to the generated state."
  },
  {
   "property": "C54",
   "status": "proved",
   "theorems": [
    "C54_sizes",
    "C54_ranges",
    "C54_field_is_local",
    "C54_decodes",
    "C54_record_is_local",
    "C54_positions"
   ],
   "note": "For all 14 record types; the layouts are generated from personal_info.py by tools/gen_personal.py."
  },
  {
   "property": "C55",
   "status": "partial",
   "theorems": [
    "C55_info_table_actual",
    "C55_info_table_partial",
    "C55_info_table_3",
    "C55_info_table_refuted"
   ],
   "note": "Finding: false. Game.DIAMOND and Game.PLATINUM are the same flag, so Platinum gets the Diamond/Pearl table, and HeartGold/SoulSilver raise although their table is bundled. Proved: the exact table for every value, own table for every other game, and get_info_table_3."
  },
  {
   "property": "C56",
   "status": "partial",
   "theorems": [
    "C56_partial",
    "C56_refuted"
   ],
   "note": "Finding: false. If the process stops (or another one reads) while the pickle is partly written, every later call raises. Proved for stops before the first and after the last byte."
  },
  {
   "property": "C57",
   "status": "partial",
   "theorems": [
    "C57_transparent_partial",
    "C57_sequences_partial",
    "C57_runs_once",
    "C57_files_separate",
    "C57_la_round_trip",
    "C57_keyword_refuted",
    "C57_stale_refuted",
    "C57_runs"
   ],
   "note": "Proved for calls with positional arguments, for every pickle that loads what it dumped. Findings: a keyword argument raises IndexError in filename.format, and the cache is never refreshed after an update of the package."
  },
  {
   "property": "C58",
   "status": "partial",
   "theorems": [
    "C58_new",
    "C58_int",
    "C58_float",
    "C58_int_enum",
    "C58_bool",
    "C58_object",
    "C58_object_array",
    "C58_string_partial",
    "C58_absent_string_refuted",
    "C58_padding",
    "C58_classes",
    "C58_incomplete",
    "C58_files"
   ],
   "note": "Proved for every kind of field and every class of encounter_la.py. Finding: read_string of an absent field with the default None raises AttributeError."
  },
  {
   "property": "C59",
   "status": "partial",
   "theorems": [
    "C59_choice_partial",
    "C59_interval",
    "C59_monotone",
    "C59_no_weight_actual",
    "C59_no_slots_actual",
    "C59_no_weight_refuted",
    "C59_without_numba_refuted"
   ],
   "note": "Proved with numba, in IEEE arithmetic for all finite weights, if some slot has weight. Findings: if no slot has weight (628 combinations of bundled table, time and weather) the last slot is returned; without numba every call raises AttributeError."
  },
  {
   "property": "C60",
   "status": "partial",
   "theorems": [
    "C60_partial",
    "C60_bare_njit_actual",
    "C60_bare_njit_refuted",
    "C60_package_partial"
   ],
   "note": "Proved for 37 of the 44 uses. Finding: optional_njit without parentheses replaces the function by one that returns its argument; 7 functions of the package are unusable without numba."
  },
  {
   "property": "C61",
   "status": "proved",
   "theorems": [
    "C61_slot",
    "C61_alpha_index_raises",
    "C61_unlisted_raises",
    "C61_missing_raises",
    "C61_file"
   ],
   "note": "C61_file is end to end, from the bytes of the encounter file. Genders are stored modulo 256: most bundled slots have gender -1, which NumPy 1 stores as 255 and NumPy 2 rejects."
  },
  {
   "property": "C62",
   "status": "proved",
   "theorems": [
    "C62_areas_are_placed",
    "C62_other_games",
    "C62_bundled_safari_zones",
    "C62_bundled_names_distinct"
   ],
   "note": "Also shown for the bundled data: they satisfy the hypotheses, safari zones are recognised, and map names are distinct."
  },
  {
   "property": "C63",
   "status": "proved",
   "theorems": [
    "C63_xorshift_full_period"
   ],
   "note": ""
  },
  {
   "property": "C64",
   "status": "proved",
   "theorems": [
    "C64_xoroshiro_full_period"
   ],
   "note": ""
  },
  {
   "property": "C65",
   "status": "proved",
   "theorems": [
    "C65_tinymt_full_period"
   ],
   "note": ""
  },
  {
   "property": "C66",
   "status": "proved",
   "theorems": [
    "C66_xorshift_follows_reference",
    "C66_xoroshiro_follows_reference"
   ],
   "note": ""
  },
  {
   "property": "C67",
   "status": "partial",
   "theorems": [
    "C67_bundled_areas_partial",
    "C67_emerald_cute_charm_partial",
    "C67_route_117_refuted"
   ],
   "note": "Proved for every lead but Cute Charm, and for Cute Charm in Emerald except in areas with empty slots and in the grass of Route 117. Finding: on Route 117 the male Cute Charm lead makes generate loop forever (seed 30)."
  },
  {
   "property": "C68",
   "status": "proved",
   "theorems": [
    "C68_three_outputs_give_the_seed_32",
    "C68_three_outputs_give_the_seed_64",
    "C68_two_outputs_leave_three_seeds",
    "C68_two_outputs_not_enough",
    "C68_two_outputs_32",
    "C68_two_outputs_64",
    "C68_two_outputs_sharp"
   ],
   "note": ""
  },
  {
   "property": "C69",
   "status": "proved",
   "theorems": [
    "C69_pid_and_ivs_give_the_seed",
    "C69_states_give_the_seed",
    "C69_pid_not_enough"
   ],
   "note": ""
  },
  {
   "property": "C70",
   "status": "proved",
   "theorems": [
    "C70_mt_outputs_give_the_seed",
    "C70_sfmt_outputs_give_the_seed",
    "C70_xorshift_outputs_give_the_state",
    "C70_xoroshiro_output_gives_the_seed"
   ],
   "note": ""
  },
  {
   "property": "C71",
   "status": "proved",
   "theorems": [
    "C71_generated_states_print",
    "C71_bundled_states_print",
    "C71_line_format",
    "C71_line_shows_the_state"
   ],
   "note": ""
  },
  {
   "property": "C72",
   "status": "proved",
   "theorems": [
    "C72_constants_name_species",
    "C72_loader_table",
    "C72_constants_distinct",
    "C72_constants_shape"
   ],
   "note": ""
  },
  {
   "property": "C73",
   "status": "partial",
   "theorems": [
    "C73_areas_load",
    "C73_slots_have_weight_partial",
    "C73_slots_have_weight_refuted",
    "C73_levels_partial",
    "C73_levels_refuted"
   ],
   "note": "Proved: all files load and fit; levels of every table but one; weights of every table but 28. Findings: mas_no_02 of the Crimson Mirelands has levels from 24 to 22, and each of the 28 tables has a time and weather without weight, where calc_slot returns a slot of weight zero."
  },
  {
   "property": "C74",
   "status": "proved",
   "theorems": [
    "C74_mt_624_outputs_give_the_rest",
    "C74_mt_623_not_enough",
    "C74_sfmt_312_outputs_give_the_rest",
    "C74_sfmt_311_not_enough",
    "C74_reached_objects"
   ],
   "note": ""
  },
  {
   "property": "C75",
   "status": "proved",
   "theorems": [
    "C75_lcrng32_values_equally_often",
    "C75_lcrng32_bounded_rands",
    "C75_lcrng64_values_equally_often",
    "C75_lcrng64_bounded_rands",
    "C75_xorshift_values",
    "C75_xoroshiro_values",
    "C75_splitmix_xoroshiro_values",
    "C75_tinymt_values"
   ],
   "note": ""
  },
  {
   "property": "C76",
   "status": "proved",
   "theorems": [
    "C76_splitmix_next_rand",
    "C76_splitmix_next_rand_values",
    "C76_xorshift_next_rand_values"
   ],
   "note": ""
  },
  {
   "property": "C77",
   "status": "proved",
   "theorems": [
    "C77_steps_32",
    "C77_steps_64",
    "C77_reverse_class_32",
    "C77_reverse_class_64",
    "C77_rands_32",
    "C77_rands_64"
   ],
   "note": ""
  },
  {
   "property": "C78",
   "status": "proved",
   "theorems": [
    "C78_readable_names",
    "C78_clean_is_clean",
    "C78_identifiers_can_share_a_name"
   ],
   "note": ""
  },
  {
   "property": "C79",
   "status": "proved",
   "theorems": [
    "C79_every_letter_in_one_area",
    "C79_chambers"
   ],
   "note": ""
  },
  {
   "property": "C80",
   "status": "partial",
   "theorems": [
    "C80_games_told_apart_partial",
    "C80_platinum_refuted",
    "C80_games_are_members",
    "C80_members",
    "C80_columns",
    "C80_synchronize",
    "C80_constants"
   ],
   "note": "Finding: false. Game.PLATINUM is an alias of Game.DIAMOND, so a set with Platinum cannot be told from one with Diamond. Proved: all sets of the other 28 games, the members of the other eight enums, the numbers of the natures."
  },
  {
   "property": "C81",
   "status": "proved",
   "theorems": [
    "C81_spawners_load",
    "C81_groups_apart",
    "C81_tables",
    "C81_outbreaks",
    "C81_groups_drawn"
   ],
   "note": ""
  },
  {
   "property": "C82",
   "status": "proved",
   "theorems": [
    "C82_keys_are_hashes",
    "C82_names",
    "C82_no_collision",
    "C82_spawner_tables_named"
   ],
   "note": ""
  },
  {
   "property": "C83",
   "status": "proved",
   "theorems": [
    "C83_tables_load",
    "C83_past_the_end",
    "C83_values",
    "C83_species_agree",
    "C83_forms",
    "C83_la_slots_have_records"
   ],
   "note": ""
  },
  {
   "property": "C84",
   "status": "proved",
   "theorems": [
    "C84_xorshift",
    "C84_xoroshiro",
    "C84_xoroshiro_sm",
    "C84_mersenne_twister",
    "C84_simd_twister",
    "C84_lcrng32",
    "C84_rng_list",
    "C84_util",
    "C84_zero_maximum"
   ],
   "note": ""
  },
  {
   "property": "C85",
   "status": "partial",
   "theorems": [
    "C85_slot_frequency_total_actual",
    "C85_slot_frequency_actual",
    "C85_slot_frequency_refuted",
    "C85_level_frequency_partial",
    "C85_species_frequency_actual"
   ],
   "note": "Finding: false for slots, by C44: in every table the first slot comes up too rarely and the last too often (the last grass slot twice as often). Proved: the exact number of seeds for every slot and, in generated encounters, every species, and the statement about levels."
  },
  {
   "property": "C86",
   "status": "proved",
   "theorems": [
    "C86_mt_cycle",
    "C86_sfmt_cycle",
    "C86_mt_never_zero",
    "C86_sfmt_never_zero"
   ],
   "note": ""
  },
  {
   "property": "C87",
   "status": "partial",
   "theorems": [
    "C87_fields_of_annotations_partial",
    "C87_fields_of_spec_partial",
    "C87_fields_of_both_partial",
    "C87_spec_used_twice",
    "C87_keyword_spec_refuted",
    "C87_package_fields",
    "C87_rnglist_state_type_actual",
    "C87_rnglist_64_bits_refuted"
   ],
   "note": "Proved for a class, a spec, both, or neither as arguments, and for every class of the package. Findings: a spec given by keyword only is dropped, and an RNGList can be built under numba for 32-bit state types only, because its buffer is declared as an array of 32-bit words whatever state_type is."
  },
  {
   "property": "C88",
   "status": "proved",
   "theorems": [
    "C88_at_most_six_seeds",
    "C88_seeds_in_pairs",
    "C88_every_spread_occurs",
    "C88_method_4_leaves_some_out",
    "C88_states"
   ],
   "note": ""
  },
  {
   "property": "C89",
   "status": "proved",
   "theorems": [
    "C89_xorshift_any_bit",
    "C89_xorshift_coin_flips",
    "C89_xoroshiro_lowest_bit",
    "C89_xoroshiro_coin_flips",
    "C89_tinymt_lowest_bit",
    "C89_tinymt_coin_flips",
    "C89_one_less_not_enough"
   ],
   "note": ""
  },
  {
   "property": "C90",
   "status": "proved",
   "theorems": [
    "C90_same_block",
    "C90_one_console",
    "C90_same_seed"
   ],
   "note": ""
  },
  {
   "property": "C91",
   "status": "proved",
   "theorems": [
    "C91_next_32",
    "C91_next_64",
    "C91_next_u16",
    "C91_next_u32",
    "C91_coin_flips"
   ],
   "note": ""
  },
  {
   "property": "C92",
   "status": "proved",
   "theorems": [
    "C92_lcrng32",
    "C92_lcrng64",
    "C92_xorshift_sequence",
    "C92_xorshift",
    "C92_xoroshiro_sequence",
    "C92_splitmix",
    "C92_rejection"
   ],
   "note": ""
  },
  {
   "property": "C93",
   "status": "proved",
   "theorems": [
    "C93_lcrng32",
    "C93_lcrng64",
    "C93_mt",
    "C93_sfmt",
    "C93_tinymt",
    "C93_xorshift",
    "C93_xoroshiro",
    "C93_functions"
   ],
   "note": ""
  },
  {
   "property": "C94",
   "status": "proved",
   "theorems": [
    "C94_cut_files",
    "C94_longer_files",
    "C94_exceptions",
    "C94_string_actual"
   ],
   "note": ""
  },
  {
   "property": "C95",
   "status": "proved",
   "theorems": [
    "C95_rock_smash",
    "C95_found_or_none",
    "C95_always_found",
    "C95_natures",
    "C95_synchronize"
   ],
   "note": ""
  },
  {
   "property": "C96",
   "status": "partial",
   "theorems": [
    "C96_jump_partial",
    "C96_const_jump_partial",
    "C96_jump_refuted",
    "C96_const_jump_refuted"
   ],
   "note": "Finding: false for the 64-bit classes under NumPy 1: np.uint64 & 1 raises TypeError, so without numba jump, and in any case const_jump, fails for every np.uint64 but 0, although np.uint64 is the annotated type. Proved: the same result for Python ints, signed NumPy integers and unsigned ones of less than 64 bits."
  },
  {
   "property": "C97",
   "status": "proved",
   "theorems": [
    "C97_numba",
    "C97_warning"
   ],
   "note": ""
  },
  {
   "property": "C98",
   "status": "proved",
   "theorems": [
    "C98_nested",
    "C98_size",
    "C98_array",
    "C98_alignment_actual"
   ],
   "note": "What the constructors call of numba (Buffer.__init__) is modelled as far as it refuses types; C98_alignment_actual: records inside a nested array do not make the array unaligned."
  },
  {
   "property": "C99",
   "status": "proved",
   "theorems": [
    "C99_reached",
    "C99_as_often",
    "C99_natures",
    "C99_species",
    "C99_rock_smash",
    "C99_any_function_32",
    "C99_any_function_64"
   ],
   "note": ""
  },
  {
   "property": "C100",
   "status": "proved",
   "theorems": [
    "C100_whole_file",
    "C100_reads_back"
   ],
   "note": ""
  },
  {
   "property": "C101",
   "status": "proved",
   "theorems": [
    "C101_trainer",
    "C101_trainer_xor",
    "C101_method",
    "C101_method_halves",
    "C101_other_methods",
    "C101_lead_elsewhere",
    "C101_idle_leads",
    "C101_ruby_sapphire"
   ],
   "note": ""
  },
  {
   "property": "C102",
   "status": "proved",
   "theorems": [
    "C102_same_place",
    "C102_delay",
    "C102_backwards"
   ],
   "note": ""
  },
  {
   "property": "C103",
   "status": "proved",
   "theorems": [
    "C103_magnet_pull",
    "C103_static_actual",
    "C103_pressure",
    "C103_bundled"
   ],
   "note": ""
  },
  {
   "property": "C104",
   "status": "proved",
   "theorems": [
    "C104_generators",
    "C104_rng_list",
    "C104_slot_table",
    "C104_state",
    "C104_generate",
    "C104_sha1",
    "C104_sha1_unset"
   ],
   "note": ""
  },
  {
   "property": "C105",
   "status": "proved",
   "theorems": [
    "C105_stats_grow",
    "C105_stats_tell_ivs"
   ],
   "note": ""
  },
  {
   "property": "C106",
   "status": "partial",
   "theorems": [
    "C106_numpy1",
    "C106_state_partial",
    "C106_stats_refuted",
    "C106_python_bases_refuted",
    "C106_arguments",
    "C106_natures",
    "C106_util",
    "C106_jumps",
    "C106_float_partial",
    "C106_float_refuted",
    "C106_sfmt",
    "C106_wild_constructor"
   ],
   "note": "Finding: false with NumPy 2 and no numba, which pyproject.toml allows: gen3/state.py:57 multiplies uint8 scalars and wraps at 8 bits, so no stat exceeds 7 and no hit points exceed level + 12; hidden power and its strength wrap too; base stats of 128 and more given as Python ints raise OverflowError; next_float_randrange rounds to float32. Proved: all other attributes, gender, shininess, Unown check, nature table, jumps, the SFMT shuffle and the wild generator's constructor are the same, and what exactly comes out."
  },
  {
   "property": "C107",
   "status": "proved",
   "theorems": [
    "C107_shared_generator",
    "C107_no_output_twice",
    "C107_callers_outputs"
   ],
   "note": ""
  },
  {
   "property": "C108",
   "status": "proved",
   "theorems": [
    "C108_update_is_fresh",
    "C108_update_fails_alike",
    "C108_update_forgets",
    "C108_update_twice",
    "C108_constructor"
   ],
   "note": ""
  },
  {
   "property": "C109",
   "status": "proved",
   "theorems": [
    "C109_own_arrays",
    "C109_changes_stay_apart",
    "C109_separate_states",
    "C109_constructor_copies",
    "C109_shared_array_shows"
   ],
   "note": ""
  },
  {
   "property": "C110",
   "status": "partial",
   "theorems": [
    "C110_numpy2_partial",
    "C110_refuted",
    "C110_other_games_actual",
    "C110_members_actual",
    "C110_other_encounters_actual",
    "C110_other_methods_actual",
    "C110_other_leads_actual"
   ],
   "note": "Finding: false. np.uint8(game) cuts the flags of later games to zero (NumPy 1, and numba), and no branch checks for an unknown game, encounter or method. Proved: exactly what comes out, which is LeafGreen without a lead for every other game, grass for every other encounter and Method 1 for every other method; leads without an effect act as no lead. C110_numpy2_partial: under NumPy 2 without numba np.uint8 itself raises OverflowError for every game from Diamond on; only NONE, GALES and COLOSSEUM get through."
  },
  {
   "property": "C111",
   "status": "proved",
   "theorems": [
    "C111_states",
    "C111_which",
    "C111_how_many_for_a_half",
    "C111_how_many",
    "C111_never",
    "C111_no_search_finds"
   ],
   "note": ""
  },
  {
   "property": "C112",
   "status": "proved",
   "theorems": [
    "C112_outputs_32",
    "C112_outputs_64",
    "C112_advance",
    "C112_modulo_rands",
    "C112_ivs",
    "C112_pids",
    "C112_states"
   ],
   "note": ""
  },
  {
   "property": "C113",
   "status": "proved",
   "theorems": [
    "C113_place_does_not_matter",
    "C113_exactly",
    "C113_synchronize",
    "C113_no_synchronize",
    "C113_bundled",
    "C113_at_most_six_pids",
    "C113_at_most_three_ivs"
   ],
   "note": ""
  },
  {
   "property": "C114",
   "status": "proved",
   "theorems": [
    "C114_no_synchronize",
    "C114_synchronize",
    "C114_no_others",
    "C114_how_many"
   ],
   "note": ""
  },
  {
   "property": "C115",
   "status": "proved",
   "theorems": [
    "C115_shiny_for_every_trainer"
   ],
   "note": ""
  },
  {
   "property": "C116",
   "status": "proved",
   "theorems": [
    "C116_every_slot_every_nature",
    "C116_from_every_seed",
    "C116_bundled"
   ],
   "note": ""
  },
  {
   "property": "C117",
   "status": "proved",
   "theorems": [
    "C117_every_slot_every_level",
    "C117_from_every_seed",
    "C117_bundled"
   ],
   "note": ""
  },
  {
   "property": "C118",
   "status": "proved",
   "theorems": [
    "C118_every_kind",
    "C118_from_every_seed",
    "C118_ratios",
    "C118_bundled"
   ],
   "note": ""
  }
 ]
}