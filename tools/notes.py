# property -> note
NOTES.update({
 "C31": "With numba proved for sizes up to 65536; beyond that the 16-bit pointer wraps (C31_rnglist_numba_large_size_refuted).",
 "C28": "next_rand(0), outside the range, never ends (C28_rejection_of_zero_never_ends).",
 "C38": "With numba 64-bit values must not be rotated by 0 or 64 (shift by 64); this is stated by rot_count_ok and C38_rotations_identity_u64.",
 "C39": "Without numba larger numbers raise IndexError.",
 "C03": "Quantified over the Python minor version, i.e. over both implementations of mod_inv.",
 "C04": "Also gives the seed left behind by the failed jump.",
 "C12": "The bound on n without numba is exact: beyond it advance wraps (C12_mt_advance_wrap_refuted).",
 "C16": "The bound on n without numba is exact: beyond it advance wraps (C16_sfmt_advance_wrap_refuted).",
 "C09": "Finding: reciprocal division with maximum=1 raises under numba; with maximum=0 and no numba it returns the raw rand.",
})
# property -> what is missing (status partial)
PARTIAL.update({
 "C25": "Finding: false at both ends. When the low 23 bits of the output are zero the result is exactly maximum, and for bounds close to each other (100 and 101) the result can be below minimum. Proved instead: for all binary32 bounds the result is finite and within 2^-23(|minimum|+|maximum|)+2^-149 of the mixture of the bounds; and it lies in [minimum, maximum], reaching maximum only for zero low bits, whenever 3|minimum| <= 4(maximum-minimum) and maximum-minimum >= 2^-100. Missing: the range for narrower bounds, where it fails.",
 "C20": "Finding: false under numba. temper() keeps the carry of a 64-bit sum, so next() can return 33-bit values (seed 775). Proved: exact value in both modes, low 32 bits agree.",
 "C22": "Proved for MT, SFMT and TinyMT without numba. Finding: false for TinyMT under numba, where next_rand(100) can return 107 because next() can exceed 32 bits; exact condition proved.",
})
NOTES.update({
 "C43": "Finding: without numba hidden_power_strength is stored as the float before truncation.",
 "C50": "The stats of a state are those of C41_natures_actual; which slot a roll selects is as in C44; Cute Charm is rolled as in C52.",
})
PARTIAL.update({
 "C41": "Finding: false. The modifiers of special attack, special defense and speed are applied to each other's stats. Proved: the exact stats, correct for exactly 7 of the 25 natures, and HP, attack and defense for all.",
 "C85": "Finding: false for slots, by C44: in every table the first slot comes up too rarely and the last too often (the last grass slot twice as often). Proved: the exact number of seeds for every slot and, in generated encounters, every species, and the statement about levels.",
 "C44": "Finding: false. Every slot but the last ends one roll early, so the first slot has one roll too few and the last one too many. Proved: the exact table for all percentage lists, in both directions.",
 "C47": "Proved for all leads but Static. Finding: Static looks for type 13, which is Psychic in the bundled personal tables (Electric is 12). In the grass of Emerald five areas with Electric types get no preferred slot and 21 areas get Psychic ones.",
 "C48": "Finding: false for land and fishing, whose rates are swapped. Proved for rock smash and surfing.",
 "C49": "Proved for everything but rock smash in Ruby, Sapphire and Emerald. Finding: there the first failed check stops the generator, so no later advance has a state.",
 "C51": "Proved without Cute Charm, and with it whenever the condition can be met. Finding: with the male Cute Charm lead and an all-male species two charm rolls out of three never end.",
 "C52": "Finding: false. The condition is inverted: Cute Charm has no effect on species with two genders.",
})
NOTES.update({
 "C62": "Also shown for the bundled data: they satisfy the hypotheses, safari zones are recognised, and map names are distinct.",
 "C53": "C53_species_and_form is end to end: from the JSON entry to the generated state.",
 "C54": "For all 14 record types; the layouts are generated from personal_info.py by tools/gen_personal.py.",
})
PARTIAL.update({
 "C55": "Finding: false. Game.DIAMOND and Game.PLATINUM are the same flag, so Platinum gets the Diamond/Pearl table, and HeartGold/SoulSilver raise although their table is bundled. Proved: the exact table for every value, own table for every other game, and get_info_table_3.",
 "C67": "Proved for every lead but Cute Charm, and for Cute Charm in Emerald except in areas with empty slots and in the grass of Route 117. Finding: on Route 117 the male Cute Charm lead makes generate loop forever (seed 30).",
})

NOTES.update({
 "C61": "C61_file is end to end, from the bytes of the encounter file. Genders are stored modulo 256: most bundled slots have gender -1, which NumPy 1 stores as 255 and NumPy 2 rejects.",
})
PARTIAL.update({
 "C56": "Finding: false. If the process stops (or another one reads) while the pickle is partly written, every later call raises. Proved for stops before the first and after the last byte.",
 "C57": "Proved for calls with positional arguments, for every pickle that loads what it dumped. Findings: a keyword argument raises IndexError in filename.format, and the cache is never refreshed after an update of the package.",
 "C58": "Proved for every kind of field and every class of encounter_la.py. Finding: read_string of an absent field with the default None raises AttributeError.",
 "C59": "Proved with numba, in IEEE arithmetic for all finite weights, if some slot has weight. Findings: if no slot has weight (628 combinations of bundled table, time and weather) the last slot is returned; without numba every call raises AttributeError.",
 "C60": "Proved for 37 of the 44 uses. Finding: optional_njit without parentheses replaces the function by one that returns its argument; 7 functions of the package are unusable without numba.",
})
PARTIAL.update({
 "C73": "Proved: all files load and fit; levels of every table but one; weights of every table but 28. Findings: mas_no_02 of the Crimson Mirelands has levels from 24 to 22, and each of the 28 tables has a time and weather without weight, where calc_slot returns a slot of weight zero.",
})

PARTIAL["C80"] = "Finding: false. Game.PLATINUM is an alias of Game.DIAMOND, so a set with Platinum cannot be told from one with Diamond. Proved: all sets of the other 28 games, the members of the other eight enums, the numbers of the natures."
PARTIAL["C87"] = "Proved for a class, a spec, both, or neither as arguments, and for every class of the package. Findings: a spec given by keyword only is dropped, and an RNGList can be built under numba for 32-bit state types only, because its buffer is declared as an array of 32-bit words whatever state_type is."
PARTIAL["C96"] = "Finding: false for the 64-bit classes under NumPy 1: np.uint64 & 1 raises TypeError, so without numba jump, and in any case const_jump, fails for every np.uint64 but 0, although np.uint64 is the annotated type. Proved: the same result for Python ints, signed NumPy integers and unsigned ones of less than 64 bits."

NOTES["C98"] = "What the constructors call of numba (Buffer.__init__) is modelled as far as it refuses types; C98_alignment_actual: records inside a nested array do not make the array unaligned."
PARTIAL["C106"] = "Finding: false with NumPy 2 and no numba, which pyproject.toml allows: gen3/state.py:57 multiplies uint8 scalars and wraps at 8 bits, so no stat exceeds 7 and no hit points exceed level + 12; hidden power and its strength wrap too; base stats of 128 and more given as Python ints raise OverflowError; next_float_randrange rounds to float32. Proved: all other attributes, gender, shininess, Unown check, nature table, jumps, the SFMT shuffle and the wild generator's constructor are the same, and what exactly comes out."
PARTIAL["C110"] = "Finding: false. np.uint8(game) cuts the flags of later games to zero (NumPy 1, and numba), and no branch checks for an unknown game, encounter or method. Proved: exactly what comes out, which is LeafGreen without a lead for every other game, grass for every other encounter and Method 1 for every other method; leads without an effect act as no lead. C110_numpy2_partial: under NumPy 2 without numba np.uint8 itself raises OverflowError for every game from Diamond on; only NONE, GALES and COLOSSEUM get through."
