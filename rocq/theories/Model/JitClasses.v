(** Generated by tools/gen_jitclasses.py: every class of numba_pokemon_prngs that
    optional_jitclass compiles by its annotations (all but rng_list.py:53): the annotations in the bodies of the class
    and of its bases, and the attributes that the methods read or assign. *)
From Coq Require Import String List.
From Verif Require Import Model.JitSpec.
Import ListNotations.
Open Scope string_scope.

Definition jitclasses : list (string * pyclass * list string) :=
  [
   (* data/encounter/encounter_area_la.py:33 *) ("EncounterAreaLA", [[("table_id", Np_dtype U64); ("slots", array_type (Record_ "SlotLA"))]], ["table_id"; "slots"]);
   (* gen3/state.py:74 *) ("GeneratorState", [[("advance", Np_dtype U32)]; [("pid", Np_dtype U32); ("species", Np_dtype U16); ("form", Np_dtype U8); ("stats", array_type U16); ("ability_index", Np_dtype U16); ("ivs", array_type U8); ("ability", Np_dtype U8); ("characteristic", Np_dtype U8); ("gender", Np_dtype U8); ("hidden_power", Np_dtype U8); ("hidden_power_strength", Np_dtype U8); ("level", Np_dtype U8); ("nature", Np_dtype U8); ("shiny", Np_dtype U8)]], ["advance"; "pid"; "species"; "form"; "ivs"; "ability"; "ability_index"; "level"; "shiny"; "stats"; "nature"; "gender"; "hidden_power_strength"; "hidden_power"; "characteristic"]);
   (* gen3/wild_generator_3.py:20 *) ("WildGenerator3", [[("method", Np_dtype U8); ("encounter", Np_dtype U8); ("game", Np_dtype U8); ("lead", Np_dtype U8); ("tsv", Np_dtype U16); ("personal_info_table", array_type (Record_ "PersonalInfo3"))]], ["method"; "encounter"; "game"; "lead"; "tsv"; "personal_info_table"]);
   (* lcrng/__init__.py:19 *) ("PokeRNGMod", [[]; [("seed", Np_dtype U32)]], ["seed"]);
   (* lcrng/__init__.py:28 *) ("PokeRNGDiv", [[]; [("seed", Np_dtype U32)]], ["seed"]);
   (* lcrng/__init__.py:38 *) ("PokeRNGRMod", [[]; [("seed", Np_dtype U32)]], ["seed"]);
   (* lcrng/__init__.py:48 *) ("PokeRNGRDiv", [[]; [("seed", Np_dtype U32)]], ["seed"]);
   (* lcrng/__init__.py:56 *) ("ARNG", [[]; [("seed", Np_dtype U32)]], ["seed"]);
   (* lcrng/__init__.py:65 *) ("ARNGR", [[]; [("seed", Np_dtype U32)]], ["seed"]);
   (* lcrng/__init__.py:74 *) ("XDRNG", [[]; [("seed", Np_dtype U32)]], ["seed"]);
   (* lcrng/__init__.py:84 *) ("XDRNGR", [[]; [("seed", Np_dtype U32)]], ["seed"]);
   (* lcrng/__init__.py:93 *) ("BWRNG", [[]; [("seed", Np_dtype U64)]], ["seed"]);
   (* lcrng/__init__.py:103 *) ("BWRNGR", [[]; [("seed", Np_dtype U64)]], ["seed"]);
   (* mersenne_twister/mt.py:15 *) ("MersenneTwister", [[("state", array_type U32); ("index", Np_dtype U16)]], ["state"; "index"]);
   (* mersenne_twister/sfmt.py:264 *) ("SIMDFastMersenneTwister", [[("state", array_type U32); ("index", Np_dtype U16)]], ["state"; "index"]);
   (* mersenne_twister/tinymt.py:12 *) ("TinyMersenneTwister", [[("state", array_type U32)]], ["state"]);
   (* sha1.py:343 *) ("SHA1", [[("data", array_type U32); ("ds_type", Np_dtype U8)]], ["ds_type"; "data"]);
   (* xorshift/xoroshiro128plus.py:42 *) ("Xoroshiro128PlusRejection", [[]; [("state", array_type U64)]], ["state"]);
   (* xorshift/xoroshiro128plus.py:104 *) ("SplitMixXoroshiro128Plus", [[]; [("state", array_type U64)]], ["state"]);
   (* xorshift/xorshift128.py:11 *) ("Xorshift128", [[("state", array_type U32)]], ["state"])
  ].
