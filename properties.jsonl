{"id": "C01", "title": "LCRNG jump equals stepping", "statement": "For every LCRNG class (any add/mult, forward or reversed) and every seed, jump(adv) leaves the generator in the same state, and returns the same value, as calling next() adv times, and as advance(adv).", "quantifier": "all add, mult, seeds and all advance counts below 2^32 (LCRNG32) or 2^64 (LCRNG64)", "why_tests_cant": "2^32 x 2^32 (or 2^64 x 2^64) seed/advance pairs per generator; tests sample five seeds and a few advances", "anchors": ["numba_pokemon_prngs/lcrng/lcrng32.py: lcrng32_init, jump, next_, LCRNG32.advance", "numba_pokemon_prngs/lcrng/lcrng64.py: lcrng64_init, jump, LCRNG64.advance"]}
{"id": "C02", "title": "const_jump equals jump", "statement": "The function returned by const_jump(adv) moves any generator of the class exactly as jump(adv) (equivalently adv calls to next()) and returns the new seed.", "quantifier": "all add, mult, seeds and all adv in range", "why_tests_cant": "same unbounded seed/advance space; const_jump composes the affine maps in a different order from jump", "anchors": ["numba_pokemon_prngs/lcrng/lcrng32.py: const_jump, jump_func", "numba_pokemon_prngs/lcrng/lcrng64.py: const_jump, jump_func"]}
{"id": "C03", "title": "Reversed generators undo forward generators", "statement": "For any multiplier the class accepts (odd), the class built with reverse=True steps backwards: next() of one undoes next() of the other, in both orders; so do jump(n) and jump(n).", "quantifier": "all odd multipliers, all increments, all seeds, all jump lengths", "why_tests_cant": "the inverse relation has to hold at every seed; only five consecutive values are tested", "anchors": ["numba_pokemon_prngs/lcrng/lcrng32.py: lcrng32_init (reverse)", "numba_pokemon_prngs/lcrng/lcrng64.py: lcrng64_init (reverse)", "numba_pokemon_prngs/lcrng/__init__.py: PokeRNGRMod, ARNGR, XDRNGR, BWRNGR", "numba_pokemon_prngs/compatability.py: mod_inv"]}
{"id": "C04", "title": "Jumps beyond the table are rejected, never silently wrong", "statement": "jump(adv) and const_jump(adv) with adv >= 2^32 (LCRNG32) or >= 2^64 (LCRNG64) raise IndexError (numba-less mode) rather than return a wrong seed, while advance(adv) uses adv modulo 2^32 / 2^64.", "quantifier": "all out-of-range advance counts", "why_tests_cant": "infinitely many advance counts", "anchors": ["numba_pokemon_prngs/lcrng/lcrng32.py: jump, const_jump, LCRNG32.advance", "numba_pokemon_prngs/lcrng/lcrng64.py: jump, const_jump"]}
{"id": "C05", "title": "Every seed lies on one full cycle", "statement": "For every published LCRNG (PokeRNG, ARNG, XDRNG, BWRNG and their reversals) the sequence of next() values has period exactly 2^32 (2^64 for BWRNG) from every seed and visits every seed: from any seed every other seed is reached by exactly one number of steps below the period.", "quantifier": "all pairs of seeds", "why_tests_cant": "a period of 2^64 cannot be enumerated", "anchors": ["numba_pokemon_prngs/lcrng/__init__.py: PokeRNGMod, PokeRNGRMod, ARNG, ARNGR, XDRNG, XDRNGR, BWRNG, BWRNGR"]}
{"id": "C06", "title": "LCRNG bounded rands stay in range and follow the documented formula", "statement": "next_rand(maximum) with maximum >= 1 (>= 2 for reciprocal division, see C09) consumes exactly one next() and returns a value in [0, maximum) equal to the documented distribution of next_u16()/next_u32(): modulo, reciprocal division, or multiplication-shift. A class with no distribution raises NotImplementedError without consuming a rand.", "quantifier": "all seeds, all maxima in the argument type, all three distributions, both execution modes", "why_tests_cant": "every (seed, maximum) pair; wrap-around of the 16-bit intermediate only shows at extreme maxima", "anchors": ["numba_pokemon_prngs/lcrng/lcrng32.py: next_rand, LCRNG32.next_u16", "numba_pokemon_prngs/lcrng/lcrng64.py: next_rand, LCRNG64.next_u32"]}
{"id": "C07", "title": "const_rand equals next_rand", "statement": "The function returned by const_rand(maximum) returns the same value and leaves the same state as next_rand(maximum), for every generator state.", "quantifier": "all seeds, maxima, distributions, modes", "why_tests_cant": "all states and maxima", "anchors": ["numba_pokemon_prngs/lcrng/lcrng32.py: const_rand", "numba_pokemon_prngs/lcrng/lcrng64.py: const_rand"]}
{"id": "C08", "title": "Reciprocal division reaches every value", "statement": "With the reciprocal-division distribution every value in [0, maximum) can be produced for every maximum from 2 to 256 and 256 is the sharp bound; with modulo and multiplication-shift every value can be produced for every maximum.", "quantifier": "all maxima, all target values", "why_tests_cant": "surjectivity quantifies over all targets and all rands", "anchors": ["numba_pokemon_prngs/lcrng/lcrng32.py: next_rand (RECIPROCAL_DIVISION)"]}
{"id": "C09", "title": "Zero and one as maximum", "statement": "The degenerate maxima 0 and 1 have a fixed outcome per distribution and mode (a value or ZeroDivisionError), and the generator has advanced exactly once either way; in particular reciprocal division with maximum=1 raises ZeroDivisionError under numba but returns 0 without it.", "quantifier": "all seeds, both modes", "why_tests_cant": "argument corner cases crossed with every state; the two modes differ", "anchors": ["numba_pokemon_prngs/lcrng/lcrng32.py: next_rand", "numba_pokemon_prngs/lcrng/lcrng64.py: next_rand"]}
{"id": "C10", "title": "mod_inv computes modular inverses", "statement": "mod_inv(value, modulus) returns the unique inverse in [0, modulus) whenever value and modulus are coprime and raises ValueError otherwise.", "quantifier": "all non-negative values and all positive moduli", "why_tests_cant": "unbounded integers; recursion depth depends on the input", "anchors": ["numba_pokemon_prngs/compatability.py: mod_inv, extended_gcd"]}
{"id": "C11", "title": "Mersenne Twister outputs are MT19937", "statement": "After MersenneTwister(seed), the k-th call of next() returns the tempered (624+k)-th word of the MT19937 recurrence started from the Knuth initialisation of seed, for every k.", "quantifier": "all 32-bit seeds, all k", "why_tests_cant": "unbounded output index; tests look at five outputs of one seed", "anchors": ["numba_pokemon_prngs/mersenne_twister/mt.py: MersenneTwister.re_init, shuffle, next"]}
{"id": "C12", "title": "Mersenne Twister advance(n) skips n outputs", "statement": "From any reachable state, after advance(n) the following outputs of next() are exactly those that follow n calls of next().", "quantifier": "all reachable states, all n (numba mode); all n with n + index < 2^32 (numba-less mode)", "why_tests_cant": "all interleavings of next and advance at block boundaries; overflow only for n near 2^32", "anchors": ["numba_pokemon_prngs/mersenne_twister/mt.py: MersenneTwister.advance, next, shuffle"]}
{"id": "C13", "title": "re_init forgets history", "statement": "re_init(args) on any generator, whatever was called on it before, gives the same future outputs as a newly constructed generator with the same arguments.", "quantifier": "all prior histories, all seeds, MT / SFMT / TinyMT / Xorshift128 / Xoroshiro / LCRNG", "why_tests_cant": "histories are unbounded", "anchors": ["numba_pokemon_prngs/mersenne_twister/mt.py: re_init", "numba_pokemon_prngs/mersenne_twister/sfmt.py: re_init", "numba_pokemon_prngs/mersenne_twister/tinymt.py: re_init", "numba_pokemon_prngs/xorshift/xorshift128.py: re_init", "numba_pokemon_prngs/xorshift/xoroshiro128plus.py: re_init", "numba_pokemon_prngs/lcrng/lcrng32.py: re_init"]}
{"id": "C14", "title": "SFMT outputs are SFMT19937", "statement": "After SIMDFastMersenneTwister(seed), the k-th call of next() returns the k-th 64-bit word of the SFMT19937 128-bit recurrence started from the initialised and parity-certified state.", "quantifier": "all seeds, all k", "why_tests_cant": "unbounded output index", "anchors": ["numba_pokemon_prngs/mersenne_twister/sfmt.py: sfmt_shuffle, SIMDFastMersenneTwister.next, re_init"]}
{"id": "C15", "title": "SFMT IR shuffle equals Python shuffle", "statement": "The LLVM-IR implementation used under numba and the Python implementation used without it transform every 624-word state identically.", "quantifier": "all 2^19968 states", "why_tests_cant": "the two code paths can never run in the same process, and the state space is huge", "anchors": ["numba_pokemon_prngs/mersenne_twister/sfmt.py: sfmt_shuffle, sfmt_shuffle_ir"]}
{"id": "C16", "title": "SFMT advance(n) skips n outputs", "statement": "From any reachable state, after advance(n) the following outputs of next() are exactly those that follow n calls of next().", "quantifier": "all reachable states, all n (numba mode); all n with 2n + index < 2^32 (numba-less mode)", "why_tests_cant": "block boundaries and 32-bit overflow", "anchors": ["numba_pokemon_prngs/mersenne_twister/sfmt.py: SIMDFastMersenneTwister.advance, next, shuffle"]}
{"id": "C17", "title": "SFMT period certification", "statement": "After initialisation with any seed the parity check vector condition of SFMT holds (inner product with the parity vector is odd), and only bit 0 of word 0 may have been changed to achieve it.", "quantifier": "all seeds", "why_tests_cant": "2^32 seeds", "anchors": ["numba_pokemon_prngs/mersenne_twister/sfmt.py: SIMDFastMersenneTwister.re_init"]}
{"id": "C18", "title": "Block twisters never index out of bounds", "statement": "In every reachable state the read index of MT is in [0, 624], that of SFMT is even and in [0, 624], the state has 624 words below 2^32, and next() reads only existing words.", "quantifier": "all histories of re_init/next/advance/shuffle/next_rand", "why_tests_cant": "unbounded histories", "anchors": ["numba_pokemon_prngs/mersenne_twister/mt.py: MersenneTwister", "numba_pokemon_prngs/mersenne_twister/sfmt.py: SIMDFastMersenneTwister"]}
{"id": "C19", "title": "TinyMT follows the reference algorithm", "statement": "TinyMersenneTwister(seed) followed by n advances and next() returns the tinymt32 reference output number n for parameters (8F7011EE, FC78FF1F, 3793FDFF).", "quantifier": "all seeds, all n", "why_tests_cant": "unbounded index, 2^32 seeds", "anchors": ["numba_pokemon_prngs/mersenne_twister/tinymt.py: re_init, shuffle, temper, next, advance"]}
{"id": "C20", "title": "TinyMT outputs fit in 32 bits in both modes", "statement": "next() and temper() return values below 2^32, identical with and without numba.", "quantifier": "all reachable states, both modes", "why_tests_cant": "the carry that breaks it occurs in about 1 of 512 outputs and only under numba's integer typing", "anchors": ["numba_pokemon_prngs/mersenne_twister/tinymt.py: temper, next, next_rand"]}
{"id": "C21", "title": "TinyMT never falls into the zero state", "statement": "For every seed and every number of steps the 127-bit state of TinyMT is non-zero, and shuffle is invertible on 127-bit states.", "quantifier": "all seeds, all step counts", "why_tests_cant": "unbounded step count", "anchors": ["numba_pokemon_prngs/mersenne_twister/tinymt.py: re_init, shuffle"]}
{"id": "C22", "title": "Bounded rands of the Mersenne family are in range", "statement": "next_rand(maximum) and next_rand_mod(maximum) of MT and TinyMT and next_rand(maximum) of SFMT return values in [0, maximum) for maximum >= 1, equal to multiplication-shift / modulo of the next() they consume.", "quantifier": "all states, all maxima", "why_tests_cant": "all (state, maximum) pairs", "anchors": ["numba_pokemon_prngs/mersenne_twister/mt.py: next_rand, next_rand_mod", "numba_pokemon_prngs/mersenne_twister/tinymt.py: next_rand, next_rand_mod", "numba_pokemon_prngs/mersenne_twister/sfmt.py: next_rand"]}
{"id": "C23", "title": "Xorshift128 next and previous are inverse", "statement": "previous() undoes next() and next() undoes previous(), and previous() returns exactly the value that the undone next() had returned.", "quantifier": "all 2^128 states", "why_tests_cant": "2^128 states", "anchors": ["numba_pokemon_prngs/xorshift/xorshift128.py: next, previous"]}
{"id": "C24", "title": "Xorshift128 bounded rands", "statement": "next_rand(maximum) is in [0, maximum); next_randrange(minimum, maximum) with minimum < maximum returns (as a 32-bit two's complement number) a value in [minimum, maximum); next_alternate_rand(maximum) is in [0, maximum) and equals next_randrange(-2^31, 2^31-1) mod maximum.", "quantifier": "all states, all int32 minimum < maximum (including ranges wider than 2^31), all maxima", "why_tests_cant": "signed/unsigned wrap-around corner cases for every pair of bounds", "anchors": ["numba_pokemon_prngs/xorshift/xorshift128.py: next_randrange, next_rand, next_alternate_rand"]}
{"id": "C25", "title": "Float range of Xorshift128", "statement": "next_float_randrange(minimum, maximum) returns a value in [minimum, maximum) as documented.", "quantifier": "all states, all finite float32 bounds", "why_tests_cant": "the excluded endpoint is produced once in 2^23 draws", "anchors": ["numba_pokemon_prngs/xorshift/xorshift128.py: next_float_randrange"]}
{"id": "C26", "title": "Xoroshiro128+ next and previous are inverse", "statement": "For both Xoroshiro classes previous() undoes next() and next() undoes previous(), and previous() returns the value that the undone next() had returned.", "quantifier": "all 2^128 states", "why_tests_cant": "2^128 states", "anchors": ["numba_pokemon_prngs/xorshift/xoroshiro128plus.py: Xoroshiro128PlusRejection.next, previous, SplitMixXoroshiro128Plus.next, previous"]}
{"id": "C27", "title": "bit_mask is the smallest covering mask", "statement": "bit_mask(maximum) for 1 <= maximum < 2^32 is the smallest 2^k - 1 that is >= maximum - 1.", "quantifier": "all maxima in [1, 2^32)", "why_tests_cant": "2^32 inputs", "anchors": ["numba_pokemon_prngs/xorshift/xoroshiro128plus.py: bit_mask"]}
{"id": "C28", "title": "Rejection sampling is correct and terminates", "statement": "next_rand(maximum), 1 <= maximum < 2^32, returns a value in [0, maximum): the first masked output below maximum, leaving the state just after it; at most one draw is needed when maximum is a power of two; the loop terminates from every state.", "quantifier": "all states, all maxima", "why_tests_cant": "the loop is unbounded; termination is a property of the whole orbit", "anchors": ["numba_pokemon_prngs/xorshift/xoroshiro128plus.py: Xoroshiro128PlusRejection.next_rand"]}
{"id": "C29", "title": "SplitMix seeding is injective and never zero", "statement": "SplitMixXoroshiro128Plus(seed) follows splitmix64; different 64-bit seeds give different states and no seed gives the all-zero state.", "quantifier": "all 64-bit seeds (and pairs of seeds)", "why_tests_cant": "2^64 seeds, 2^128 pairs", "anchors": ["numba_pokemon_prngs/xorshift/xoroshiro128plus.py: SplitMixXoroshiro128Plus.re_init, splitmix"]}
{"id": "C30", "title": "advance(n) is n calls of next", "statement": "For the xorshift-family and TinyMT generators advance(n) leaves the state that n calls of next() leave, and the linear engine's step is a bijection (no two states merge).", "quantifier": "all states, all n", "why_tests_cant": "unbounded n", "anchors": ["numba_pokemon_prngs/xorshift/xorshift128.py: advance", "numba_pokemon_prngs/xorshift/xoroshiro128plus.py: advance", "numba_pokemon_prngs/mersenne_twister/tinymt.py: advance"]}
{"id": "C31", "title": "RNGList is a sliding window on the PRNG stream", "statement": "After any sequence of re_init / advance_state / advance_states / advance / get_value, get_value() returns the PRNG output at (window start + cursor), where the window of `size` consecutive outputs slides by one per advance_state (cursor reset to the window start), and the cursor moves modulo size.", "quantifier": "all histories, all sizes that are powers of two (up to 65536 under numba), any underlying PRNG", "why_tests_cant": "arbitrary interleavings of window slides and reads, wrap-around of the ring buffer", "anchors": ["numba_pokemon_prngs/rng_list.py: build_rnglist, SpecificRNGList"]}
{"id": "C32", "title": "RNGList accepts exactly powers of two", "statement": "build_rnglist succeeds iff size is a positive power of two.", "quantifier": "all integers", "why_tests_cant": "unbounded integers", "anchors": ["numba_pokemon_prngs/rng_list.py: build_rnglist"]}
{"id": "C33", "title": "FNV hashes", "statement": "fnv1_64 / fnv1a_64 follow the FNV-1 / FNV-1a recurrence modulo 2^64; hashing is incremental (prefix hash then continue); two strings of equal length that differ in exactly one character never collide.", "quantifier": "all strings", "why_tests_cant": "infinitely many strings", "anchors": ["numba_pokemon_prngs/fnv.py: fnv1_64, fnv1a_64"]}
{"id": "C34", "title": "Gen 5 seed is SHA-1 of the message block", "statement": "For every game/language/console, MAC, date, time, timer0, vcount and buttons, hash_seed(precompute()) equals one BWRNG step of the byte-swapped first two words of the standard SHA-1 compression of the 16-word block, whatever was in the uninitialised buffer. Other games and languages are hashed with five zero words, without an error.", "quantifier": "all parameter values, all initial buffer contents", "why_tests_cant": "2^400 message blocks; the code is an unrolled, partially precomputed, re-derived message schedule", "anchors": ["numba_pokemon_prngs/sha1.py: SHA1.__init__, precompute, hash_seed, calc_w, calc_w_simd, section1_calc, section2_calc, section3_calc, section4_calc"]}
{"id": "C35", "title": "SHA-1 precompute can be reused", "statement": "An alpha from precompute() stays valid for any later sequence of set_time / set_button / hash_seed calls: hash_seed(alpha) keeps returning the correct seed for the current time and buttons. Changing date or timer0 requires a new precompute().", "quantifier": "all histories of set_time/set_button/hash_seed after precompute", "why_tests_cant": "unbounded histories; stale-cache errors depend on call order", "anchors": ["numba_pokemon_prngs/sha1.py: precompute, hash_seed, set_time, set_button, set_date, set_timer0"]}
{"id": "C36", "title": "Date, time and timer encodings are faithful", "statement": "set_date / set_time / set_timer0 / set_button write the documented BCD / byte-swapped words and nothing else; two different valid dates, times or (timer0, vcount) pairs give different words.", "quantifier": "all valid dates, times, timers", "why_tests_cant": "injectivity over all pairs", "anchors": ["numba_pokemon_prngs/sha1.py: set_date, set_time, set_timer0, set_button, BCD"]}
{"id": "C37", "title": "Byte swap", "statement": "change_endian_u32 reverses the four bytes; applying it twice is the identity.", "quantifier": "all 32-bit values", "why_tests_cant": "2^32 inputs", "anchors": ["numba_pokemon_prngs/util.py: change_endian_u32"]}
{"id": "C38", "title": "Rotations", "statement": "rotate_left and rotate_right (32/64 bit) rotate bit i to i+count modulo the width, undo each other, and add up: rotating by a then b is rotating by (a+b) mod width; counts 0 and width are the identity without numba.", "quantifier": "all values, all counts 0..width", "why_tests_cant": "2^64 values x counts", "anchors": ["numba_pokemon_prngs/util.py: rotate_left_u32, rotate_right_u32, rotate_left_u64, rotate_right_u64"]}
{"id": "C39", "title": "hex_32 is a faithful rendering", "statement": "hex_32(num) is exactly eight upper-case hexadecimal digits whose value is num; different numbers give different strings.", "quantifier": "all 32-bit numbers", "why_tests_cant": "2^32 inputs, injectivity over pairs", "anchors": ["numba_pokemon_prngs/util.py: hex_32, HEX_LOOKUP"]}
{"id": "C40", "title": "Nature-modified stats are exact", "statement": "compute_stat(stat, nature, index) equals floor(stat*9/10), stat or floor(stat*11/10) exactly as integer arithmetic would, despite being computed in float32, for every 16-bit stat; results that exceed 16 bits excluded.", "quantifier": "all 16-bit stats, 25 natures, 5 indices", "why_tests_cant": "rounding of float32 products at every integer", "anchors": ["numba_pokemon_prngs/util.py: compute_stat, NATURE_MODIFIERS"]}
{"id": "C41", "title": "Natures modify the stats they are named for", "statement": "In a generated state the raised and lowered stats are those of the named nature (Adamant raises attack and lowers special attack, Brave lowers speed, ...).", "quantifier": "all natures and stats", "why_tests_cant": "needs the game's nature table for all 25 natures x 5 stats, at every stat value", "anchors": ["numba_pokemon_prngs/util.py: NATURE_MODIFIERS", "numba_pokemon_prngs/gen3/state.py: State.update_stats"]}
{"id": "C42", "title": "Gender, shininess and Unown letter", "statement": "get_gender, get_shiny and unown_check compute the game's rules: fixed-gender ratios, gender threshold on the low PID byte, square/star shiny by xor distance, and exactly one of 28 Unown letters accepted per PID.", "quantifier": "all PIDs, ratios, trainer values, forms", "why_tests_cant": "2^32 PIDs x 2^16 TSVs", "anchors": ["numba_pokemon_prngs/gen3/util.py: get_gender, get_shiny, unown_check"]}
{"id": "C43", "title": "Characteristic and hidden power", "statement": "The characteristic names the highest IV (ties broken cyclically from pid mod 6) and its value mod 5; hidden power type is in 0..15 and strength in 30..70, computed from the IV low bits in HP/Atk/Def/Spe/SpA/SpD order.", "quantifier": "all PIDs and all IV spreads", "why_tests_cant": "2^32 x 32^6 inputs", "anchors": ["numba_pokemon_prngs/gen3/state.py: State.update_stats, ORDER, CHAR_ORDER"]}
{"id": "C44", "title": "Encounter slot tables honour the slot percentages", "statement": "A slot lookup table built from cumulative percentages maps roll r to the first slot whose cumulative percentage exceeds r; one built with greater=True from bounds that fall to -1 maps r to the first slot whose bound lies below r.", "quantifier": "all increasing percentage lists ending at 100, all decreasing bounds ending at -1, all rolls 0..99", "why_tests_cant": "holds per roll at each boundary of each list", "anchors": ["numba_pokemon_prngs/gen3/encounter_area_3.py: compute_table, GRASS_TABLE, OLD_ROD_TABLE, GOOD_ROD_TABLE, SUPER_ROD_TABLE, ROCK_SMASH_AND_SURF_TABLE"]}
{"id": "C45", "title": "Slot choice is always a slot of the area", "statement": "calculate_hslot and calculate_hslot_lead always return one of the slots of the list for that encounter type (or a lead-modified slot), never index out of range, and consume a determined number of rands.", "quantifier": "all seeds, areas, encounter types, leads", "why_tests_cant": "all seeds and areas", "anchors": ["numba_pokemon_prngs/gen3/encounter_area_3.py: calculate_hslot, calculate_hslot_lead, get_modified_slots"]}
{"id": "C46", "title": "Levels lie in the slot's range", "statement": "calculate_level returns a level in [min_level, max_level] for every slot with min_level <= max_level, with or without Pressure; Pressure returns max_level on an even second roll, else never exceeds the unmodified level.", "quantifier": "all slots, all seeds", "why_tests_cant": "all level ranges x seeds", "anchors": ["numba_pokemon_prngs/gen3/encounter_area_3.py: calculate_level"]}
{"id": "C47", "title": "Lead-modified slots are exactly the type matches", "statement": "get_modified_slots returns, in order, exactly the slots of the encounter type's list whose species has the lead's type, and nothing for leads without a type.", "quantifier": "all areas, leads, games, personal tables", "why_tests_cant": "all areas and tables", "anchors": ["numba_pokemon_prngs/gen3/encounter_area_3.py: get_modified_slots"]}
{"id": "C48", "title": "Encounter rate belongs to the encounter type", "statement": "get_encounter_rate returns the land / water / rock / fishing rate of the area for the matching encounter type.", "quantifier": "all areas, encounter types", "why_tests_cant": "needs the intended rate for each type and area", "anchors": ["numba_pokemon_prngs/gen3/encounter_area_3.py: get_encounter_rate"]}
{"id": "C49", "title": "Each generated state depends only on its own advance", "statement": "generate(seed, delay, initial, max) yields for each advance a in [initial, initial+max) the state generated from the seed stepped (a+delay) times, independently of other advances; so ranges can be split and concatenated.", "quantifier": "all seeds, delays, ranges, areas, settings", "why_tests_cant": "unbounded ranges; an error at one advance corrupts all later ones", "anchors": ["numba_pokemon_prngs/gen3/wild_generator_3.py: WildGenerator3.generate"]}
{"id": "C50", "title": "Generated states are coherent", "statement": "Every generated state has nature = PID mod 25, the synchronised nature when synchronize succeeds, ability slot PID&1, gender from PID, Unown form matching the PID, IVs of 5 bits from the documented rands (Method 1/2/4 gaps), shininess by get_shiny, and level within the slot's range.", "quantifier": "all seeds, settings", "why_tests_cant": "all seeds and settings", "anchors": ["numba_pokemon_prngs/gen3/wild_generator_3.py: WildGenerator3.generate", "numba_pokemon_prngs/gen3/state.py: GeneratorState.__init__"]}
{"id": "C51", "title": "The PID search always ends", "statement": "For every seed and every nature, species and lead, the PID rejection loop of generate terminates.", "quantifier": "all seeds, natures, leads, gender ratios, Unown forms", "why_tests_cant": "a non-terminating input shows in a test only as a hang", "anchors": ["numba_pokemon_prngs/gen3/wild_generator_3.py: WildGenerator3.generate (while loop), cute_charm_check"]}
{"id": "C52", "title": "Cute Charm applies to species with two genders", "statement": "With a Cute Charm lead in Emerald, for species with both genders two thirds of the rolls force the opposite gender, and single-gender species are unaffected.", "quantifier": "all seeds, species", "why_tests_cant": "needs rule over all gender ratios and rolls", "anchors": ["numba_pokemon_prngs/gen3/wild_generator_3.py: generate (cute_charm), cute_charm_check"]}
{"id": "C53", "title": "Species and form survive packing", "statement": "Packing (species, form) into the 16-bit slot field and unpacking it in the generator returns the same pair for species < 2048 and form < 32.", "quantifier": "all species/form pairs", "why_tests_cant": "pairs over the whole field", "anchors": ["numba_pokemon_prngs/data/encounter/__init__.py: load_encounter_3 (UNOWN_ENCOUNTERS)", "numba_pokemon_prngs/gen3/wild_generator_3.py: generate (species, form)"]}
{"id": "C54", "title": "Personal records decode by fixed offsets", "statement": "Each PersonalInfo record type has exactly the asserted size; its fields occupy disjoint byte ranges covering the record, and decoding the encoding of any field values returns them; the n-th record of a file depends only on its own bytes.", "quantifier": "all record types, all field values, all files", "why_tests_cant": "all byte strings", "anchors": ["numba_pokemon_prngs/data/personal/personal_info.py: PersonalInfo1..PersonalInfo9SV", "numba_pokemon_prngs/data/util.py: dtype_dataclass, unused_bytes", "numba_pokemon_prngs/data/personal/__init__.py: load_personal"]}
{"id": "C55", "title": "Each game selects its own personal table", "statement": "get_info_table maps every implemented game flag to that game's table and raises NotImplementedError otherwise.", "quantifier": "all game values (flag combinations)", "why_tests_cant": "2^29 flag values", "anchors": ["numba_pokemon_prngs/data/personal/__init__.py: get_info_table, get_info_table_3", "numba_pokemon_prngs/enums/game.py: Game"]}
{"id": "C56", "title": "The pickle cache survives crashes", "statement": "If the process stops at any point while a cached loader runs, a later call still returns the loader's result.", "quantifier": "all crash points in the write, all later calls", "why_tests_cant": "crash points are between bytes of a write", "anchors": ["numba_pokemon_prngs/data/encounter/__init__.py: pickle_cached"]}
{"id": "C57", "title": "The pickle cache is transparent", "statement": "Without crashes, a cached loader returns the uncached function's result on first and on later calls, for each argument separately, and calls the function at most once per argument.", "quantifier": "all call sequences", "why_tests_cant": "all histories of calls", "anchors": ["numba_pokemon_prngs/data/encounter/__init__.py: pickle_cached, encounter_tables_la_encode, encounter_tables_la_decode"]}
{"id": "C58", "title": "FlatBuffer fields read back", "statement": "Reading a table by consecutive vtable slots returns, for any layout (present or absent fields, any field order in the data area, any padding), the stored value of each present field and the default for each absent one; the cursor moves one slot per read irrespective of presence.", "quantifier": "all tables and layouts", "why_tests_cant": "all layouts of all tables", "anchors": ["numba_pokemon_prngs/data/fbs/flatbuffer_object.py: FlatBufferObject, read_int, read_init_int, read_object_array, read_init_padding"]}
{"id": "C59", "title": "Legends Arceus slot choice follows the weights", "statement": "calc_slot(rand, time, weather) returns slot i for exactly the rands in [0,1) of an interval whose length is proportional to the slot's weight, up to rounding of binary64, and a larger rand never gives an earlier slot; slots of weight zero are never returned.", "quantifier": "all areas with at least one slot, all times, weathers and rands, both modes", "why_tests_cant": "real-valued rand, all weights", "anchors": ["numba_pokemon_prngs/data/encounter/encounter_area_la.py: EncounterAreaLA.calc_slot"]}
{"id": "C60", "title": "Decorators are transparent without numba", "statement": "With numba disabled, functions and classes decorated with optional_njit / optional_jitclass behave as the undecorated ones, in every way the decorators are applied in the package.", "quantifier": "all decorated objects and arguments", "why_tests_cant": "applies to every decorated function and call", "anchors": ["numba_pokemon_prngs/compilation.py: optional_njit, optional_jitclass"]}
{"id": "C61", "title": "Legends Arceus slot loading", "statement": "Loading a slot uses the override level when it is in 1..100 and the table's level otherwise, adds the species' alpha boost to both levels for alpha slots, and replaces a negative multiplier by the species multiplier or, if that is negative too, by 1.", "quantifier": "all table contents", "why_tests_cant": "all table contents", "anchors": ["numba_pokemon_prngs/data/encounter/__init__.py: load_encounter_tables_la"]}
{"id": "C62", "title": "Gen 3 area loading places every slot", "statement": "load_encounter_3 keeps for a game exactly the areas whose label names it (all for Emerald), keeps their order and index as location, distributes the ten fishing slots 2/3/5 to old/good/super rod, and leaves skipped areas empty.", "quantifier": "all encounter JSON contents of the schema", "why_tests_cant": "all contents", "anchors": ["numba_pokemon_prngs/data/encounter/__init__.py: load_encounter_3"]}
{"id": "C63", "title": "Xorshift128 has period 2^128 - 1", "statement": "Every nonzero state of Xorshift128 returns to itself after exactly 2^128 - 1 calls of next() and no earlier, and every other nonzero state is visited on the way.", "quantifier": "all nonzero states, all states", "why_tests_cant": "2^128 steps cannot be run", "anchors": ["numba_pokemon_prngs/xorshift/xorshift128.py: Xorshift128.next, advance"]}
{"id": "C64", "title": "Xoroshiro128+ has period 2^128 - 1", "statement": "Every nonzero state of either Xoroshiro class returns to itself after exactly 2^128 - 1 calls of next() and no earlier, and every other nonzero state is visited on the way.", "quantifier": "all nonzero states, all states", "why_tests_cant": "2^128 steps cannot be run", "anchors": ["numba_pokemon_prngs/xorshift/xoroshiro128plus.py: Xoroshiro128PlusRejection.next, SplitMixXoroshiro128Plus.next, advance"]}
{"id": "C65", "title": "TinyMT has period 2^127 - 1", "statement": "The 127-bit state of TinyMT returns to itself after exactly 2^127 - 1 steps and no earlier, and every nonzero 127-bit state is visited on the way.", "quantifier": "all nonzero 127-bit states", "why_tests_cant": "2^127 steps cannot be run", "anchors": ["numba_pokemon_prngs/mersenne_twister/tinymt.py: TinyMersenneTwister.shuffle, advance"]}
{"id": "C66", "title": "Xorshift128 and Xoroshiro128+ outputs follow the published recurrences", "statement": "The n-th output of Xorshift128 is word n+4 of Marsaglia's xorshift (11, 8, 19) sequence, and the Xoroshiro classes follow xoroshiro128+ (24, 16, 37); SplitMix returns the upper half.", "quantifier": "all states, all n, both modes", "why_tests_cant": "every state and step", "anchors": ["numba_pokemon_prngs/xorshift/xorshift128.py: Xorshift128.next", "numba_pokemon_prngs/xorshift/xoroshiro128plus.py: Xoroshiro128PlusRejection.next, SplitMixXoroshiro128Plus.next"]}
{"id": "C67", "title": "The Gen 3 generator works on every bundled area", "statement": "For every bundled area of the five games, with the bundled personal tables, WildGenerator3.generate returns for every encounter type, lead, method, trainer and seed.", "quantifier": "all five games, all bundled areas, all settings, all seeds and ranges", "why_tests_cant": "a seed that loops forever is not found by trying seeds", "anchors": ["numba_pokemon_prngs/gen3/wild_generator_3.py: WildGenerator3.generate", "numba_pokemon_prngs/data/encounter/__init__.py: load_encounter_3", "numba_pokemon_prngs/data/personal/__init__.py: load_personal"]}
{"id": "C68", "title": "LCRNG outputs identify the seed", "statement": "Three consecutive results of next_u16 (32-bit generators) or next_u32 (64-bit generators) of any published LCRNG come from exactly one seed; two results of the Generation 3/4 generator (forward or reversed) leave at most three seeds, of the others at most two, and each of these numbers is reached.", "quantifier": "all published generators, all seeds", "why_tests_cant": "2^32 and 2^64 seeds, pairwise", "anchors": ["numba_pokemon_prngs/lcrng/lcrng32.py: LCRNG32.next_u16", "numba_pokemon_prngs/lcrng/lcrng64.py: LCRNG64.next_u32"]}
{"id": "C69", "title": "PID and IVs identify the seed", "statement": "For Methods 1, 2 and 4, a PID together with the HP, Attack and Defense IVs comes from exactly one seed of the PID rolls, so every generated state locates its place on the stream of the run's seed.", "quantifier": "all seeds, all runs of generate", "why_tests_cant": "2^32 seeds, pairwise", "anchors": ["numba_pokemon_prngs/gen3/wild_generator_3.py: WildGenerator3.generate"]}
{"id": "C70", "title": "Twister and xorshift outputs identify the seed", "statement": "Different 32-bit seeds of MersenneTwister or SIMDFastMersenneTwister differ in one of four (eight) given outputs; four outputs of Xorshift128 determine its state; the first output of Xoroshiro128PlusRejection determines seed_0 when seed_1 is known.", "quantifier": "all seeds and states, both modes", "why_tests_cant": "2^32 to 2^128 seeds, pairwise", "anchors": ["numba_pokemon_prngs/mersenne_twister/mt.py: MersenneTwister.next", "numba_pokemon_prngs/mersenne_twister/sfmt.py: SIMDFastMersenneTwister.next", "numba_pokemon_prngs/xorshift/xorshift128.py: Xorshift128.next", "numba_pokemon_prngs/xorshift/xoroshiro128plus.py: Xoroshiro128PlusRejection.next"]}
{"id": "C71", "title": "The text of a state shows the state", "statement": "csv() and str() succeed on every state that WildGenerator3.generate returns, with the bundled data for every game, area and setting. The line is the fields in order: decimal numbers, the PID in eight hexadecimal digits, names of the species, nature, ability and hidden power, and a gender symbol. Two states with the same line agree in every field shown.", "quantifier": "all generated states, all pairs of states", "why_tests_cant": "texts of 2^32 PIDs and all fields, pairwise", "anchors": ["numba_pokemon_prngs/gen3/state.py: GeneratorState.csv, __str__", "numba_pokemon_prngs/data/__init__.py: SPECIES_EN, ABILITIES_EN, NATURES_EN, TYPES_EN, GENDER_SYMBOLS"]}
{"id": "C72", "title": "Species constants name species", "statement": "CONSTANT_CASE_SPECIES_EN.index(c) is k exactly when c is the constant of the k-th English name; no two names share a constant; constants begin with SPECIES_ and contain no lower case letter.", "quantifier": "all constants and names", "why_tests_cant": "any constant, of a name or not", "anchors": ["numba_pokemon_prngs/data/__init__.py: CONSTANT_CASE_SPECIES_EN", "numba_pokemon_prngs/data/encounter/__init__.py: load_encounter_3"]}
{"id": "C73", "title": "The bundled Legends Arceus areas work", "statement": "Each of the five bundled encounter files loads; every slot of every area has a level range within 1 to 100; at every time and in every weather, calc_slot returns a slot with weight for every rand.", "quantifier": "all bundled tables, times, weathers and rands", "why_tests_cant": "five megabyte-sized files, all rands", "anchors": ["numba_pokemon_prngs/data/encounter/encounter_area_la.py: EncounterAreaLA.calc_slot", "numba_pokemon_prngs/data/encounter/__init__.py: load_encounter_tables_la"]}
{"id": "C74", "title": "Twister outputs determine the future", "statement": "Two MersenneTwister objects in any state that agree on 624 consecutive outputs agree on all later ones, and 623 do not suffice; likewise 312 outputs of a SIMDFastMersenneTwister, if both start at the same half of a 128-bit word, and 311 do not suffice.", "quantifier": "all states and positions in the block, both modes", "why_tests_cant": "2^19968 states, pairwise", "anchors": ["numba_pokemon_prngs/mersenne_twister/mt.py: MersenneTwister.next", "numba_pokemon_prngs/mersenne_twister/sfmt.py: SIMDFastMersenneTwister.next"]}
{"id": "C75", "title": "Every value comes up as often as it should", "statement": "Over one period next_u16 / next_u32 of the LCRNGs return every value equally often, the bounded rands of each distribution return each value an exactly known number of times, and Xorshift128, the xoroshiro generators and TinyMT return every value equally often except zero, which comes up once less.", "quantifier": "all seeds or nonzero states, all values, all maxima below 2^16 (from 2 on for reciprocal division) or up to 2^32 (LCRNG64)", "why_tests_cant": "periods of 2^32 to 2^128 calls", "anchors": ["numba_pokemon_prngs/lcrng/lcrng32.py: next_u16, next_rand", "numba_pokemon_prngs/lcrng/lcrng64.py: next_u32, next_rand", "numba_pokemon_prngs/xorshift/xorshift128.py: Xorshift128.next", "numba_pokemon_prngs/xorshift/xoroshiro128plus.py: Xoroshiro128PlusRejection.next", "numba_pokemon_prngs/mersenne_twister/tinymt.py: TinyMersenneTwister.next"]}
{"id": "C76", "title": "Bounded rands of the SplitMix generator", "statement": "next_rand(maximum) of SplitMixXoroshiro128Plus is next() mod maximum for every maximum >= 1, consumes one output, and over one period each value comes up an exactly known number of times; likewise next_rand of Xorshift128.", "quantifier": "all states, all maxima, all values, both modes", "why_tests_cant": "2^128 states x all maxima", "anchors": ["numba_pokemon_prngs/xorshift/xoroshiro128plus.py: SplitMixXoroshiro128Plus.next_rand", "numba_pokemon_prngs/xorshift/xorshift128.py: Xorshift128.next_rand"]}
{"id": "C77", "title": "The published classes are the games' generators", "statement": "With every Python version a step of PokeRNG*, ARNG*, XDRNG* and BWRNG* is the step with the multiplier and increment tabulated for the games (and for their inverses), each reverse class undoes its partner over any number of steps, and next_rand of each class follows the rule of its game.", "quantifier": "all seeds, all advance counts, all maxima, all Python versions", "why_tests_cant": "2^32 to 2^64 seeds x advances", "anchors": ["numba_pokemon_prngs/lcrng/__init__.py: PokeRNGMod, PokeRNGDiv, PokeRNGRMod, PokeRNGRDiv, ARNG, ARNGR, XDRNG, XDRNGR, BWRNG, BWRNGR"]}
{"id": "C78", "title": "Map names follow one rule", "statement": "The name of a map in MAP_NAMES_GEN3 is its identifier without MAP_, split at underscores and white space and joined with spaces, where routes and rooms get a space before their number, floor and room labels stay, and every other word starts with a capital and goes on in small letters. Cleaning a name again changes nothing.", "quantifier": "all ASCII identifiers", "why_tests_cant": "unbounded strings; several regular expressions that overlap", "anchors": ["numba_pokemon_prngs/data/encounter/__init__.py: clean_map_string, load_encounter_3"]}
{"id": "C79", "title": "Every Unown letter has one chamber", "statement": "In FireRed and LeafGreen each of the 28 Unown letters is in the grass of exactly one loaded area, and the slots of the seven chambers of Tanoby Ruins hold the letters of the games.", "quantifier": "both games, all areas, all slots, all letters", "why_tests_cant": "a table of 84 numbers combined with two loaded files; a single wrong number loses a letter", "anchors": ["numba_pokemon_prngs/data/encounter/__init__.py: UNOWN_ENCOUNTERS, load_encounter_3"]}
{"id": "C80", "title": "Enum values identify their members", "statement": "A union of Game members tells for every game whether it was included; in the other enums a member's value gives back its name, up to abilities that share a member; Lead.SYNCHRONIZE_X has the number of nature X. The constants compared against in the code are these values.", "quantifier": "all sets of games, all members of all nine enums", "why_tests_cant": "2^29 sets of games; the numbers are written by hand in nine files and compared against in others", "anchors": ["numba_pokemon_prngs/enums/game.py: Game", "numba_pokemon_prngs/enums/lead.py: Lead", "numba_pokemon_prngs/enums/encounter.py: Encounter", "numba_pokemon_prngs/enums/method.py: Method"]}
{"id": "C81", "title": "Spawners and massive outbreaks are consistent", "statement": "In SPAWNER_INFORMATION_LA both lookups hold every spawner, every spawner has a position and counts from 1 to 4, and its encounter table is one of ENCOUNTER_INFORMATION_LA of the same map or, for mass outbreaks, a lottery of NHO_LOTTERY_TABLE_LA. Every hash in such a lottery is the key of a group of NHO_GROUP_TABLE_LA whose tables for both waves belong to that map or, outside the common list, the hash of the empty string.", "quantifier": "all five maps, all spawners, lotteries, groups and waves", "why_tests_cant": "references between fourteen bundled files read through FlatBuffer tables; a wrong field number is only seen as a dangling reference", "anchors": ["numba_pokemon_prngs/data/encounter/__init__.py: SPAWNER_INFORMATION_LA, NHO_LOTTERY_TABLE_LA, NHO_GROUP_TABLE_LA", "numba_pokemon_prngs/data/fbs/encounter_la.py: PlacementSpawner8a, NewHugeOutbreakGroup8a, NewHugeOutbreakGroupLottery8a"]}
{"id": "C82", "title": "Encounter table names are the preimages of their ids", "statement": "ENCOUNTER_TABLE_NAMES_LA maps fnv1a_64(name) to name, for exactly the names that the comment in data/encounter/__init__.py enumerates; no two of these names have the same hash, and every encounter table that a spawner of its own map uses has a name.", "quantifier": "all 11363 names, all pairs of names, all spawners of the five maps", "why_tests_cant": "pairs of names; a hash that differs from the games' in one constant gives a table of numbers that looks as good", "anchors": ["numba_pokemon_prngs/fnv.py: fnv1a_64", "numba_pokemon_prngs/data/encounter/__init__.py: ENCOUNTER_TABLE_NAMES_LA, SPAWNER_INFORMATION_LA"]}
{"id": "C83", "title": "The bundled personal tables are coherent", "statement": "Each PERSONAL_INFO table is a whole number of records, whose types and abilities have names and whose gender ratios are known ones. The species of generation 3 have one gender ratio in all tables, and one set of base stats up to generation 5 apart from Deoxys. Form references lead to records of the table, and no record serves two species. Every slot of the Legends Arceus encounter tables has a filled-in record that allows its gender.", "quantifier": "all fifteen loaded tables, all records, all forms; all slots of the five maps", "why_tests_cant": "about eleven thousand binary records in ten layouts; a field that is one byte off still reads plausible numbers", "anchors": ["numba_pokemon_prngs/data/personal/__init__.py: load_personal, PERSONAL_INFO_LA", "numba_pokemon_prngs/data/personal/personal_info.py: PersonalInfo4, PersonalInfo8LA", "numba_pokemon_prngs/data/encounter/__init__.py: load_encounter_tables_la"]}
{"id": "C84", "title": "Both modes return the same values", "statement": "Whether or not numba is installed, the same calls on Xorshift128, either Xoroshiro128+ class, MersenneTwister, SIMDFastMersenneTwister, an LCRNG32 class or an RNGList of up to 2^16 entries return the same values, for arguments whose divisors are not zero in their type and whose counters stay within their words. So do the rotations by defined counts and hex_32 of a 32-bit number. For next_rand of Xorshift128 and of a modulo LCRNG32, a maximum that is zero gives 0 without numba and ZeroDivisionError under it.", "quantifier": "all states, all seeds, all sequences of calls with such arguments", "why_tests_cant": "the two modes use different integer widths, and the SIMD twister different code; a difference shows only for rare carries or long sequences", "anchors": ["numba_pokemon_prngs/xorshift/xorshift128.py: Xorshift128", "numba_pokemon_prngs/xorshift/xoroshiro128plus.py: Xoroshiro128PlusRejection, SplitMixXoroshiro128Plus", "numba_pokemon_prngs/mersenne_twister/mt.py: MersenneTwister", "numba_pokemon_prngs/mersenne_twister/sfmt.py: sfmt_shuffle, SIMDFastMersenneTwister", "numba_pokemon_prngs/lcrng/lcrng32.py: LCRNG32", "numba_pokemon_prngs/rng_list.py: RNGList", "numba_pokemon_prngs/util.py: rotate_left_u64, hex_32", "numba_pokemon_prngs/compilation.py: optional_njit, optional_jitclass"]}
{"id": "C85", "title": "Slots come up as often as the percentages say", "statement": "Of the 2^32 seeds, calculate_hslot gives each slot of a Gen 3 area for the share of its percentage in the games, up to the bias of 65536 rands modulo 100. Each level of a slot comes up equally often, up to the bias of 65536 rands modulo the number of levels.", "quantifier": "all areas, all encounter types, all slots, counted over all 2^32 seeds", "why_tests_cant": "counts over 2^32 seeds; a shift by one roll looks like noise in samples", "anchors": ["numba_pokemon_prngs/gen3/encounter_area_3.py: compute_table, calculate_hslot, calculate_level"]}
{"id": "C86", "title": "Twister sequences are cycles and never die out", "statement": "For every seed the outputs of MersenneTwister and of SIMDFastMersenneTwister repeat with some period from the first output on. There are never 624 outputs 0 in a row (313 for the SIMD twister), so no seed leads into the state of zeros that stays zero.", "quantifier": "all seeds, both modes, all positions of the sequence", "why_tests_cant": "a tail or a dead state could begin after any number of outputs; the state space has 2^19937 elements", "anchors": ["numba_pokemon_prngs/mersenne_twister/mt.py: MersenneTwister", "numba_pokemon_prngs/mersenne_twister/sfmt.py: SIMDFastMersenneTwister"]}
{"id": "C87", "title": "Compiled classes have the declared fields", "statement": "Under numba, optional_jitclass compiles a class with exactly the fields that its annotations (inherited ones included) or the given spec declare, in the types they name, and annotations win over a spec. Every class of the package is compiled with exactly the attributes its methods use. An RNGList can be built for every state_type.", "quantifier": "all classes and specs, every way to write the decorator; all compiled classes of the package; all state types", "why_tests_cant": "any class hierarchy and spec; the decorator has five call forms, of which the package uses two", "anchors": ["numba_pokemon_prngs/compilation.py: convert_to_numba, convert_spec, convert_spec_cls, optional_jitclass", "numba_pokemon_prngs/rng_list.py: build_rnglist"]}
{"id": "C88", "title": "Six IVs leave at most six seeds", "statement": "The six IVs of a generated Gen 3 encounter come from two rands of the main generator. By Methods 1, 2 and 4 and at every advance, at most six of the 2^32 seeds give the same six IVs, and seeds that differ by 2^31 always do. By Methods 1 and 2 every combination of six IVs comes up; by Method 4 some never do.", "quantifier": "all seeds, advances and methods, all 2^30 combinations of IVs", "why_tests_cant": "2^32 seeds at every advance for each of 2^30 combinations; that none is left out is a statement about all of them", "anchors": ["numba_pokemon_prngs/gen3/wild_generator_3.py: WildGenerator3.generate", "numba_pokemon_prngs/lcrng/__init__.py: PokeRNGMod"]}
{"id": "C89", "title": "Coin flips identify the state", "statement": "Any single bit of 128 consecutive outputs of Xorshift128, and the lowest bit of 128 consecutive outputs of Xoroshiro128PlusRejection, determine the whole 128-bit state; the lowest bit of 127 consecutive outputs of TinyMersenneTwister determines the 127 bits of its state that later outputs depend on. So do as many calls of next_rand(2) (next_rand_mod(2) for TinyMT). One flip less is not enough.", "quantifier": "all pairs of states, all bit positions (Xorshift128), both modes", "why_tests_cant": "2^128 states; whether two of them share 128 bits cannot be searched", "anchors": ["numba_pokemon_prngs/xorshift/xorshift128.py: Xorshift128.next, next_rand", "numba_pokemon_prngs/xorshift/xoroshiro128plus.py: Xoroshiro128PlusRejection.next, next_rand", "numba_pokemon_prngs/mersenne_twister/tinymt.py: next, next_rand_mod"]}
{"id": "C90", "title": "The hashed block tells the settings", "statement": "On one console every other date, time, (timer0, vcount) pair or set of buttons gives SHA1 another block. Two objects have the same block, and then the same seed, exactly if date, time, timer, buttons, soft reset and the MAC address after mixing in frame and GX state agree, the games have the same addresses (Black and White of some languages, on DSi and 3DS also those of Japan and Korea), and the consoles agree, except that DSi and 3DS are not told apart before noon.", "quantifier": "all pairs of settings, all initial buffer contents", "why_tests_cant": "about 2^200 pairs of settings; collisions of one field with another cannot be searched", "anchors": ["numba_pokemon_prngs/sha1.py: SHA1.__init__, set_date, set_time, set_timer0, set_button, get_nazo"]}
{"id": "C91", "title": "Low bits repeat sooner than high bits", "statement": "For every published LCRNG and seed the lowest k+1 bits of the results of next() have period exactly 2^(k+1), those of next_u16 / next_u32 exactly 2^(k+17) / 2^(k+33), and bit k is inverted after half of the period. So a coin flip next_rand(2) by modulo is always the opposite of the flip 65536 calls before, while by reciprocal division flips repeat only after 2^32 calls.", "quantifier": "all published generators, all seeds, all bits, all positions of the sequence", "why_tests_cant": "the periods reach 2^64 calls, and that no shorter one exists is about all numbers", "anchors": ["numba_pokemon_prngs/lcrng/lcrng32.py: next, next_u16, next_rand", "numba_pokemon_prngs/lcrng/lcrng64.py: next, next_u32", "numba_pokemon_prngs/lcrng/__init__.py: PokeRNGMod, PokeRNGDiv, BWRNG"]}
{"id": "C92", "title": "Every history is a position in one sequence", "statement": "Whatever calls are made on an LCRNG, Xorshift128 or Xoroshiro128+ object, in any order, the object is a cursor on one numbered sequence fixed by its seed: next() and the bounded rands return functions of the number under the cursor and move it on, previous() moves it back, advance, jump and const_jump move it by their argument, re_init puts it on the sequence of the new seed. The sequences of Xorshift128 and Xoroshiro128+ extend uniquely before the seed. Rejection moves the cursor past the first accepted draw.", "quantifier": "all seeds, all sequences of calls with arguments in their documented ranges, both modes", "why_tests_cant": "there are infinitely many interleavings of calls", "anchors": ["numba_pokemon_prngs/lcrng/lcrng32.py: next, next_u16, next_rand, jump, advance, const_jump, const_rand, re_init", "numba_pokemon_prngs/lcrng/lcrng64.py: next, next_u32, next_rand, jump, advance, const_jump, const_rand, re_init", "numba_pokemon_prngs/xorshift/xorshift128.py: next, previous, advance, next_rand, next_randrange, next_alternate_rand, re_init", "numba_pokemon_prngs/xorshift/xoroshiro128plus.py: next, previous, advance, next_rand, re_init"]}
{"id": "C93", "title": "Returned integers fit their annotated types", "statement": "Whatever calls are made on a generator, with whatever arguments and seeds, every integer returned is below 2^w for the width w of the return type in the signature: 16 bits for next_u16 and the rands of the 32-bit LCRNG, 32 for those of the 64-bit one, MT19937, Xorshift128 and SplitMix, 64 for SFMT and Xoroshiro128+ (32 for its next_rand with a maximum up to 2^32). The exception is TinyMT under numba, whose next and temper may use 33 bits. The hashes, rotations and endian swap fit too.", "quantifier": "all seeds, all sequences of calls, all arguments, both modes", "why_tests_cant": "an overflow shows up only for particular states and arguments", "anchors": ["numba_pokemon_prngs/lcrng/lcrng32.py: next_u16, next_rand, jump, advance", "numba_pokemon_prngs/lcrng/lcrng64.py: next_u32, next_rand, jump, advance", "numba_pokemon_prngs/mersenne_twister/mt.py: next, next_rand, next_rand_mod", "numba_pokemon_prngs/mersenne_twister/sfmt.py: next, next_rand", "numba_pokemon_prngs/mersenne_twister/tinymt.py: next, temper, next_rand, next_rand_mod", "numba_pokemon_prngs/xorshift/xorshift128.py: next, next_rand, next_randrange, next_alternate_rand", "numba_pokemon_prngs/xorshift/xoroshiro128plus.py: next, next_rand", "numba_pokemon_prngs/fnv.py: fnv1_64, fnv1a_64", "numba_pokemon_prngs/util.py: rotate_left_u32, rotate_right_u32, rotate_left_u64, rotate_right_u64, change_endian_u32"]}
{"id": "C94", "title": "A file cut short is not read as other data", "statement": "Whatever the bytes of a Legends Arceus file, loading only its first bytes gives what loading all of them gives, or raises; bytes after the end of a readable file change nothing. Malformed bytes can only raise struct.error or TypeError, and IndexError for spawners and AttributeError for encounter tables. A string, which these files do not have, can lose its end silently.", "quantifier": "all byte strings, all lengths kept, the six loaders and load_encounter_tables_la", "why_tests_cant": "there is one truncation for each length of each file", "anchors": ["numba_pokemon_prngs/data/fbs/flatbuffer_object.py: FlatBufferObject, read_int, read_object_array, read_string", "numba_pokemon_prngs/data/encounter/__init__.py: load_encounter_tables_la"]}
{"id": "C95", "title": "Encounters and natures come up as often as the rates say", "statement": "Over all 2^32 seeds, at any one advance: Rock Smash in Ruby, Sapphire and Emerald finds a Pokemon for as many seeds as 16 times the rate of the area out of 2880 gives, and nothing for the others; every other encounter always finds one. In these other encounters, without Synchronize, each nature comes up for 2621 or 2622 of every 65536 seeds, whatever the area, encounter type, method and advance; a lead with Synchronize passes its nature on for at least half of the seeds.", "quantifier": "all areas, games, methods, leads but Cute Charm, advances and delays; all 2^32 seeds are counted", "why_tests_cant": "needs every one of the 2^32 seeds for every area", "anchors": ["numba_pokemon_prngs/gen3/wild_generator_3.py: WildGenerator3.generate", "numba_pokemon_prngs/gen3/encounter_area_3.py: calculate_hslot"]}
{"id": "C96", "title": "Jumps accept NumPy integers", "statement": "jump and const_jump of the LCRNG classes do the same for a NumPy integer of the annotated type as for the equal Python int.", "quantifier": "all LCRNG classes, seeds and distances, every kind of integer argument", "why_tests_cant": "a test passes Python ints; the operators used depend on the type of the argument, at every one of up to 64 bits", "anchors": ["numba_pokemon_prngs/lcrng/lcrng32.py: jump, const_jump", "numba_pokemon_prngs/lcrng/lcrng64.py: jump, const_jump"]}
{"id": "C97", "title": "Numba is used exactly when asked for and installed", "statement": "The package runs with numba if and only if numba is installed and the environment variable NPP_USE_NUMBA is absent or TRUE; one warning is given exactly if numba was to be used and is not installed.", "quantifier": "all environments and sets of installed packages", "why_tests_cant": "the choice is made once per process at import, so a test run sees one environment", "anchors": ["numba_pokemon_prngs/options.py: USE_NUMBA"]}
{"id": "C98", "title": "Nested array types flatten", "statement": "However deeply array types of numbers or records are nested, the patched numba classes make one type of the innermost elements with all the dimensions in order, hence as many elements; an array of such a type has the dimensions of both.", "quantifier": "all element types of whole bytes, all depths and shapes, all layouts", "why_tests_cant": "types of every depth exist and only a few are used by the package", "anchors": ["numba_pokemon_prngs/patch.py: patch_numba_8e2063b"]}
{"id": "C99", "title": "One seed sees everything", "statement": "Whatever encounter some seed gives at its first advance, every other seed gives at one of its 2^32 advances; among the advances of any one seed every kind of encounter (nature, species, Rock Smash success) comes up as often as among all seeds. The same holds for anything computed from the seed of a published LCRNG.", "quantifier": "all seeds, settings and areas, all kinds of results, all published LCRNGs", "why_tests_cant": "2^32 advances of each of 2^32 seeds", "anchors": ["numba_pokemon_prngs/gen3/wild_generator_3.py: WildGenerator3.generate", "numba_pokemon_prngs/lcrng/lcrng32.py: LCRNG32.advance", "numba_pokemon_prngs/lcrng/lcrng64.py: LCRNG64.advance", "numba_pokemon_prngs/lcrng/__init__.py: PokeRNGMod"]}
{"id": "C100", "title": "A dumped FlatBuffer object is the whole file", "statement": "dump_binary, called on the root object of a file or on any object inside it, after any reads, appends exactly the file to the stream; read back, that is the root object.", "quantifier": "all files, all objects reachable from them by reads, all streams", "why_tests_cant": "objects nest without bound, and every object keeps the buffer it was read from", "anchors": ["numba_pokemon_prngs/data/fbs/flatbuffer_object.py: FlatBufferObject.dump_binary, FlatBufferObject.__init__, read_object, read_object_array"]}
{"id": "C101", "title": "Each setting of the wild generator changes only its own part of the state", "statement": "For the same seed, area and advances: other trainer ids change nothing but the shininess, and only their xor counts; another method changes nothing but the IVs and the stats and hidden power computed from them, methods 1 and 4 share the first three IVs, methods 2 and 4 the last three, and the first three of method 2 are the last three of method 1; a lead has no effect outside Emerald, and inside it only Synchronize, Cute Charm, Magnet Pull, Static and Pressure have; Ruby and Sapphire generate the same.", "quantifier": "all seeds, areas, advances, trainers, methods, leads and games", "why_tests_cant": "every statement compares two whole runs, over every pair of settings", "anchors": ["numba_pokemon_prngs/gen3/wild_generator_3.py: WildGenerator3.__init__, WildGenerator3.generate", "numba_pokemon_prngs/gen3/encounter_area_3.py: calculate_hslot_lead"]}
{"id": "C102", "title": "Seeds, delays and advances are interchangeable", "statement": "Two runs of generate whose first advances are at the same place of the sequence of seeds give the same states, each numbered from its own first advance. So a delay is a number of advances that are not counted, and the seed that PokeRNGR* finds going back from a seed reproduces, that much later, what the seed gives.", "quantifier": "all seeds, delays, advances, areas, settings and encounter types", "why_tests_cant": "a seed search works on 2^32 seeds and any number of advances back", "anchors": ["numba_pokemon_prngs/gen3/wild_generator_3.py: WildGenerator3.generate", "numba_pokemon_prngs/lcrng/lcrng32.py: jump", "numba_pokemon_prngs/lcrng/__init__.py: PokeRNGRMod, PokeRNGRDiv"]}
{"id": "C103", "title": "Leads take effect for at least half of the seeds", "statement": "Over all 2^32 seeds, at any one advance and for every encounter that no check precedes: with Magnet Pull at least half of the seeds give a Steel type if the area has one, and with Pressure at least half give the highest level of a slot of their species. Static does the same for the type that it looks for by mistake (C47). This covers every bundled area of Emerald.", "quantifier": "all areas, encounter types but Rock Smash in Ruby, Sapphire and Emerald, methods, advances and delays; all 2^32 seeds are counted", "why_tests_cant": "the share is over all 2^32 seeds", "anchors": ["numba_pokemon_prngs/gen3/encounter_area_3.py: calculate_hslot_lead, calculate_level, get_modified_slots", "numba_pokemon_prngs/gen3/wild_generator_3.py: WildGenerator3.generate"]}
{"id": "C104", "title": "No result depends on uninitialised memory", "statement": "The constructors allocate with np.empty, whose content is arbitrary. The generators, the RNG list, the generation 3 states and the lists that generate returns are the same whatever that content was, and so are the slot tables made from ranges that cover all rolls. The seed from SHA1 is the same once set_timer0 and set_date were called before precompute, and set_time and set_button before hash_seed, in any order and any number of times. A word whose setter was not called keeps what the memory held, and then the seed can differ.", "quantifier": "all contents of the uninitialised arrays and all arguments; for SHA1 all sequences of setter calls before and after precompute", "why_tests_cant": "fresh memory is usually zero in a test run", "anchors": ["numba_pokemon_prngs/mersenne_twister/mt.py: MersenneTwister.__init__", "numba_pokemon_prngs/mersenne_twister/sfmt.py: SIMDFastMersenneTwister.__init__", "numba_pokemon_prngs/mersenne_twister/tinymt.py: TinyMersenneTwister.__init__", "numba_pokemon_prngs/rng_list.py: build_rnglist", "numba_pokemon_prngs/sha1.py: SHA1.__init__, SHA1.precompute, SHA1.hash_seed", "numba_pokemon_prngs/gen3/encounter_area_3.py: compute_table", "numba_pokemon_prngs/gen3/state.py: GeneratorState.__init__", "numba_pokemon_prngs/gen3/wild_generator_3.py: WildGenerator3.generate"]}
{"id": "C105", "title": "Stats grow and tell IVs", "statement": "Among generation 3 states with the same nature, none of the six stats goes down when the level, the IVs or the base stats go up. At level 100, two states of one species and nature that agree in a stat have the same IV in it, except that a stat lowered by the nature leaves two neighbouring IVs open.", "quantifier": "all levels below 256, IVs below 32, base stats below 256, PIDs, species and modes", "why_tests_cant": "pairs of states over all levels, IVs, base stats and natures; the arithmetic goes through float32", "anchors": ["numba_pokemon_prngs/gen3/state.py: GeneratorState.__init__, GeneratorState.update_stats", "numba_pokemon_prngs/util.py: compute_stat"]}
{"id": "C106", "title": "The NumPy version does not matter", "statement": "Without numba, a generation 3 state, gender, shininess, the Unown check, LCRNG jumps and next_float_randrange come out the same with every NumPy version that pyproject.toml allows (>=1.26, so also NumPy 2).", "quantifier": "all arguments and kinds of integers, IVs, base stats and levels, NumPy 1 and NumPy 2", "why_tests_cant": "the lock file pins one NumPy, so tests see one set of promotion rules; which values wrap depends on all base stats, IVs and levels", "anchors": ["numba_pokemon_prngs/gen3/state.py: GeneratorState.__init__, GeneratorState.update_stats", "numba_pokemon_prngs/gen3/util.py: get_gender, get_shiny, unown_check", "numba_pokemon_prngs/lcrng/lcrng32.py: lcrng32_init", "numba_pokemon_prngs/lcrng/lcrng64.py: lcrng64_init", "numba_pokemon_prngs/xorshift/xorshift128.py: Xorshift128.next_float_randrange", "numba_pokemon_prngs/util.py: NATURE_MODIFIERS"]}
{"id": "C107", "title": "Lists on one generator share out its outputs", "statement": "When several RNGLists are built on the same generator object, and the caller goes on using it, then whatever the order of the calls every output goes to exactly one of them: no list repeats or loses an output that another one drew, and the generator has advanced by the total.", "quantifier": "all generators, numbers and sizes of lists, and interleavings of calls", "why_tests_cant": "the number of interleavings is unbounded, and a copied generator looks right until two lists are used together", "anchors": ["numba_pokemon_prngs/rng_list.py: build_rnglist, SpecificRNGList"]}
{"id": "C108", "title": "update_stats leaves nothing of the old state", "statement": "Calling update_stats on a generation 3 state whose attributes were changed gives the stats, gender, nature, characteristic and hidden power of a state constructed with the present attributes, whatever was computed before. It leaves all other attributes (also the ability index) as they are, and calling it twice is calling it once.", "quantifier": "all states with six stats, all attribute values and personal records, with and without numba", "why_tests_cant": "states reached by arbitrary assignments; a leftover shows only for particular old values", "anchors": ["numba_pokemon_prngs/gen3/state.py: State.update_stats, GeneratorState.__init__"]}
{"id": "C109", "title": "Generated states share no arrays", "statement": "The states that generate returns own their IV and stat arrays: producing later states does not change earlier ones, arrays that the caller had keep their contents, and whatever the caller does to one state (writing to its arrays or attributes, update_stats) is not visible in any other.", "quantifier": "all generators, areas, seeds and advances, all sequences of later changes, all contents of the heap", "why_tests_cant": "aliasing shows only when one of two sharing states is changed; sequences of changes are unbounded", "anchors": ["numba_pokemon_prngs/gen3/state.py: State.update_stats, GeneratorState.__init__", "numba_pokemon_prngs/gen3/wild_generator_3.py: WildGenerator3.generate"]}
{"id": "C110", "title": "Settings of other generations are refused", "statement": "A WildGenerator3 given a member of Game, Encounter or Method that the third generation's wild encounters do not have raises instead of returning states of some other game, encounter or method. A lead without an effect in Emerald acts as no lead.", "quantifier": "all members of Game outside Ruby to LeafGreen, of Encounter outside the six wild ones, of Method outside 1, 2 and 4, of Lead without an effect, all seeds, advances, leads and areas", "why_tests_cant": "the states returned look like any others; which game and encounter they belong to is a statement about all seeds and areas", "anchors": ["numba_pokemon_prngs/gen3/wild_generator_3.py: WildGenerator3.__init__, WildGenerator3.generate", "numba_pokemon_prngs/gen3/encounter_area_3.py: calculate_hslot"]}
{"id": "C111", "title": "Which PIDs can come up", "statement": "Every state of a wild search has one of the PIDs that two rands in a row make. These are exactly 3006791680 of the 2^32 PIDs: 45880 high halves for every low half, given by a formula. A search for any of the others (for example 0x00040000) fails for all seeds and settings.", "quantifier": "all seeds, advances, delays, settings and areas; all 2^32 PIDs", "why_tests_cant": "that a PID never comes up is a statement about all 2^32 seeds", "anchors": ["numba_pokemon_prngs/gen3/wild_generator_3.py: WildGenerator3.generate", "numba_pokemon_prngs/lcrng/lcrng32.py: LCRNG32.next, LCRNG32.next_u16"]}
{"id": "C112", "title": "Seeds that differ in their highest bit are sisters", "statement": "Two seeds of an LCRNG that differ only in their highest bit give outputs that differ only in their highest bit, for ever. In Generation 3 they give the same IVs, shininess (for every trainer), gender, ability and Unown letter, and always different natures.", "quantifier": "all seeds, all published LCRNG classes, all numbers of outputs, all trainers, gender ratios and letters", "why_tests_cant": "a statement about all pairs of seeds and endless sequences", "anchors": ["numba_pokemon_prngs/lcrng/lcrng32.py: LCRNG32.next, LCRNG32.next_u16, LCRNG32.advance", "numba_pokemon_prngs/lcrng/lcrng64.py: LCRNG64.next_u32", "numba_pokemon_prngs/gen3/util.py: get_shiny, get_gender, unown_check", "numba_pokemon_prngs/gen3/wild_generator_3.py: WildGenerator3.generate"]}
{"id": "C113", "title": "Which PID and IVs can be met does not depend on the place", "statement": "At one advance of the wild generator of Generation 3, the pairs of a PID and IVs that some seed gives are the same in every area, for every encounter type, game, trainer, delay and advance, if the method is the same and the leads treat natures alike (no Unown, no Cute Charm, no encounter check). With Synchronize these include every PID and IVs that follow a seed with an even upper half. No IVs come with more than six PIDs and no PID with more than three combinations of IVs.", "quantifier": "all pairs of such places and settings, all PIDs and IVs, all 2^32 seeds", "why_tests_cant": "an equivalence between two existence statements over 2^32 seeds, for all pairs of places", "anchors": ["numba_pokemon_prngs/gen3/wild_generator_3.py: WildGenerator3.generate"]}
{"id": "C114", "title": "Which Pokemon with six IVs of 31 can be met", "statement": "At every place with an encounter at every advance (no Unown, no Cute Charm), in every game, a wild Pokemon of Generation 3 with six IVs of 31 has one of six PIDs by Method 1, six by Method 2 and four by Method 4, and some seed gives each of them with Synchronize of its nature. Without Synchronize the same PIDs come up by Methods 1 and 4, and only two of the six by Method 2. Exactly 20, 3 and 6 of the 2^32 seeds do so by Methods 1, 2 and 4 without Synchronize, and a known number with each Synchronize.", "quantifier": "all places, settings, delays and advances, all 2^32 seeds and PIDs", "why_tests_cant": "that no other PID comes up is a statement about all 2^32 seeds and all places; PID searches go back an unbounded number of rands", "anchors": ["numba_pokemon_prngs/gen3/wild_generator_3.py: WildGenerator3.generate"]}
{"id": "C115", "title": "Every trainer can meet a shiny Pokemon at every place", "statement": "Whatever the trainer id and secret id, the method, lead, delay and advance, at every place with an encounter at every advance (no Unown, no Cute Charm) some seed of the wild generator of Generation 3 gives a shiny Pokemon.", "quantifier": "all trainer ids, places, settings, delays and advances", "why_tests_cant": "an existence statement for 2^32 pairs of ids and all places", "anchors": ["numba_pokemon_prngs/gen3/wild_generator_3.py: WildGenerator3.generate", "numba_pokemon_prngs/gen3/util.py: get_shiny"]}
{"id": "C116", "title": "Every Pokemon of an area can be met with every nature", "statement": "Whatever the game, encounter type, method, lead (Cute Charm aside), delay and advance, for every slot of the area and each of the 25 natures some seed of the wild generator of Generation 3 gives the Pokemon of that slot, at a level of the slot, with that nature; and every seed gives it at some advance. Rock Smash in Ruby, Sapphire and Emerald must have a rate other than 0.", "quantifier": "all areas, slots, natures, settings, delays, advances and seeds", "why_tests_cant": "an existence statement over 2^32 seeds for every area and setting", "anchors": ["numba_pokemon_prngs/gen3/wild_generator_3.py: WildGenerator3.generate"]}
{"id": "C117", "title": "Every Pokemon of an area can be met at each of its levels", "statement": "Whatever the game, encounter type (but Rock Smash in Ruby, Sapphire and Emerald), method, lead (Cute Charm aside; Pressure included), delay and advance, for every slot of the area and every level from its minimum to its maximum some seed of the wild generator of Generation 3 gives the Pokemon of that slot at that level; and every seed gives it at some advance.", "quantifier": "all areas, slots, levels, settings, delays, advances and seeds", "why_tests_cant": "an existence statement over 2^32 seeds for every area and setting", "anchors": ["numba_pokemon_prngs/gen3/wild_generator_3.py: WildGenerator3.generate", "numba_pokemon_prngs/gen3/encounter_area_3.py: calculate_level"]}
{"id": "C118", "title": "Every Pokemon of an area can be met with every nature, gender and ability", "statement": "Whatever the game, encounter type (but Rock Smash in Ruby, Sapphire and Emerald), method, lead (Cute Charm aside), delay and advance, for every slot of the area but Unown, each of the 25 natures, each gender its species can have and each of its two abilities some seed of the wild generator of Generation 3 gives the Pokemon of that slot with all three; and every seed gives it at some advance. The gender ratios of all bundled species are covered.", "quantifier": "all areas, slots, natures, genders, abilities, settings, delays, advances and seeds", "why_tests_cant": "an existence statement over 2^32 seeds for every area and setting", "anchors": ["numba_pokemon_prngs/gen3/wild_generator_3.py: WildGenerator3.generate", "numba_pokemon_prngs/gen3/util.py: get_gender"]}
