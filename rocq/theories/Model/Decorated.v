(** Generated by tools/gen_decorated.py: every function and class of numba_pokemon_prngs that
    optional_njit or optional_jitclass decorates, how, and the number of its parameters. *)
From Coq Require Import NArith String List.
From Verif Require Import Model.Compilation.
Import ListNotations.
Open Scope string_scope.

Definition decorated : list (string * string * use * nat) :=
  [
   (* data/encounter/encounter_area_la.py:32 *) ("data/encounter/encounter_area_la.py", "EncounterAreaLA", Bare_jitclass, 2%nat);
   (* data/personal/__init__.py:70 *) ("data/personal/__init__.py", "get_info_table_3", Bare_njit, 1%nat);
   (* fnv.py:9 *) ("fnv.py", "fnv1_64", Called_njit, 1%nat);
   (* fnv.py:19 *) ("fnv.py", "fnv1a_64", Called_njit, 1%nat);
   (* gen3/encounter_area_3.py:36 *) ("gen3/encounter_area_3.py", "calculate_hslot", Bare_njit, 3%nat);
   (* gen3/encounter_area_3.py:54 *) ("gen3/encounter_area_3.py", "calculate_hslot_lead", Bare_njit, 5%nat);
   (* gen3/encounter_area_3.py:72 *) ("gen3/encounter_area_3.py", "calculate_level", Bare_njit, 3%nat);
   (* gen3/encounter_area_3.py:87 *) ("gen3/encounter_area_3.py", "is_rse_safari_zone", Bare_njit, 2%nat);
   (* gen3/encounter_area_3.py:116 *) ("gen3/encounter_area_3.py", "get_modified_slots", Bare_njit, 5%nat);
   (* gen3/encounter_area_3.py:191 *) ("gen3/encounter_area_3.py", "get_encounter_rate", Bare_njit, 2%nat);
   (* gen3/state.py:73 *) ("gen3/state.py", "GeneratorState", Bare_jitclass, 9%nat);
   (* gen3/util.py:7 *) ("gen3/util.py", "get_gender", Called_njit, 2%nat);
   (* gen3/util.py:19 *) ("gen3/util.py", "get_shiny", Called_njit, 2%nat);
   (* gen3/util.py:30 *) ("gen3/util.py", "unown_check", Called_njit, 2%nat);
   (* gen3/wild_generator_3.py:19 *) ("gen3/wild_generator_3.py", "WildGenerator3", Bare_jitclass, 6%nat);
   (* lcrng/lcrng32.py:140 *) ("lcrng/lcrng32.py", "jump_func", Called_njit, 1%nat);
   (* lcrng/lcrng32.py:157 *) ("lcrng/lcrng32.py", "rand_func", Called_njit, 1%nat);
   (* lcrng/lcrng32.py:173 *) ("lcrng/lcrng32.py", "rand_func", Called_njit, 1%nat);
   (* lcrng/lcrng32.py:195 *) ("lcrng/lcrng32.py", "lcrng_class", Bare_jitclass, 1%nat);
   (* lcrng/lcrng64.py:136 *) ("lcrng/lcrng64.py", "jump_func", Called_njit, 1%nat);
   (* lcrng/lcrng64.py:155 *) ("lcrng/lcrng64.py", "rand_func", Called_njit, 1%nat);
   (* lcrng/lcrng64.py:178 *) ("lcrng/lcrng64.py", "lcrng_class", Bare_jitclass, 1%nat);
   (* mersenne_twister/mt.py:14 *) ("mersenne_twister/mt.py", "MersenneTwister", Bare_jitclass, 1%nat);
   (* mersenne_twister/sfmt.py:263 *) ("mersenne_twister/sfmt.py", "SIMDFastMersenneTwister", Bare_jitclass, 1%nat);
   (* mersenne_twister/tinymt.py:11 *) ("mersenne_twister/tinymt.py", "TinyMersenneTwister", Bare_jitclass, 1%nat);
   (* rng_list.py:53 *) ("rng_list.py", "SpecificRNGList", Called_jitclass, 1%nat);
   (* sha1.py:19 *) ("sha1.py", "compute_nazo_bw", Called_njit, 1%nat);
   (* sha1.py:33 *) ("sha1.py", "compute_nazo_bw2", Called_njit, 3%nat);
   (* sha1.py:118 *) ("sha1.py", "get_nazo", Called_njit, 3%nat);
   (* sha1.py:202 *) ("sha1.py", "section1_calc", Called_njit, 6%nat);
   (* sha1.py:237 *) ("sha1.py", "section2_calc", Called_njit, 6%nat);
   (* sha1.py:272 *) ("sha1.py", "section3_calc", Called_njit, 6%nat);
   (* sha1.py:307 *) ("sha1.py", "section4_calc", Called_njit, 6%nat);
   (* sha1.py:342 *) ("sha1.py", "SHA1", Bare_jitclass, 7%nat);
   (* util.py:6 *) ("util.py", "change_endian_u32", Called_njit, 1%nat);
   (* util.py:16 *) ("util.py", "rotate_left_u32", Called_njit, 2%nat);
   (* util.py:24 *) ("util.py", "rotate_right_u32", Called_njit, 2%nat);
   (* util.py:32 *) ("util.py", "rotate_left_u64", Called_njit, 2%nat);
   (* util.py:40 *) ("util.py", "rotate_right_u64", Called_njit, 2%nat);
   (* util.py:54 *) ("util.py", "compute_stat", Called_njit, 3%nat);
   (* util.py:63 *) ("util.py", "hex_32", Called_njit, 1%nat);
   (* xorshift/xoroshiro128plus.py:41 *) ("xorshift/xoroshiro128plus.py", "Xoroshiro128PlusRejection", Bare_jitclass, 2%nat);
   (* xorshift/xoroshiro128plus.py:103 *) ("xorshift/xoroshiro128plus.py", "SplitMixXoroshiro128Plus", Bare_jitclass, 1%nat);
   (* xorshift/xorshift128.py:10 *) ("xorshift/xorshift128.py", "Xorshift128", Bare_jitclass, 4%nat)
  ].
