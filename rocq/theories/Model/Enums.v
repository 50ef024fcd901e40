(** Model of numba_pokemon_prngs/enums/: the members of each IntEnum with their values, in the order
    of the class bodies (written by tools/gen_enums.py). *)
From Coq Require Import NArith String List.
Import ListNotations.
Open Scope N_scope.
Open Scope string_scope.

(** enums/game.py:9-38. *)
Definition Game : list (string * N) :=
  [("NONE", 0); ("RUBY", 1); ("SAPPHIRE", 2); ("EMERALD", 4); ("FIRE_RED", 8); ("LEAF_GREEN", 16);
   ("GALES", 32); ("COLOSSEUM", 64); ("DIAMOND", 512); ("PEARL", 256); ("PLATINUM", 512);
   ("HEART_GOLD", 1024); ("SOUL_SILVER", 2048); ("BLACK", 4096); ("WHITE", 8192);
   ("BLACK2", 16384); ("WHITE2", 32768); ("X", 65536); ("Y", 131072); ("OMEGA_RUBY", 262144);
   ("ALPHA_SAPPHIRE", 524288); ("SUN", 1048576); ("MOON", 2097152); ("ULTRA_SUN", 4194304);
   ("ULTRA_MOON", 8388608); ("SWORD", 16777216); ("SHIELD", 33554432);
   ("BRILLIANT_DIAMOND", 67108864); ("SHINING_PEARL", 134217728); ("LEGENDS_ARCEUS", 268435456)].

(** enums/encounter.py:9-28. *)
Definition Encounter : list (string * N) :=
  [("GRASS", 0); ("DOUBLE_GRASS", 1); ("SPECIAL_GRASS", 2); ("ROCK_SMASH", 3); ("SURFING", 4);
   ("SPECIAL_SURF", 5); ("OLD_ROD", 6); ("GOOD_ROD", 7); ("SUPER_ROD", 8);
   ("SPECIAL_SUPER_ROD", 9); ("STATIC", 10); ("BUG_CATCHING_CONTEST", 11); ("HEADBUTT", 12);
   ("HEADBUTT_ALT", 13); ("HEADBUTT_SPECIAL", 14); ("ROAMER", 15); ("GIFT", 16); ("ENTRALINK", 17);
   ("GIFT_EGG", 18); ("HIDDEN_GROTTO", 19)].

(** enums/lead.py:9-58. *)
Definition Lead : list (string * N) :=
  [("NONE", 255); ("SYNCHRONIZE_HARDY", 0); ("SYNCHRONIZE_LONELY", 1); ("SYNCHRONIZE_BRAVE", 2);
   ("SYNCHRONIZE_ADAMANT", 3); ("SYNCHRONIZE_NAUGHTY", 4); ("SYNCHRONIZE_BOLD", 5);
   ("SYNCHRONIZE_DOCILE", 6); ("SYNCHRONIZE_RELAXED", 7); ("SYNCHRONIZE_IMPISH", 8);
   ("SYNCHRONIZE_LAX", 9); ("SYNCHRONIZE_TIMID", 10); ("SYNCHRONIZE_HASTY", 11);
   ("SYNCHRONIZE_SERIOUS", 12); ("SYNCHRONIZE_JOLLY", 13); ("SYNCHRONIZE_NAIVE", 14);
   ("SYNCHRONIZE_MODEST", 15); ("SYNCHRONIZE_MILD", 16); ("SYNCHRONIZE_QUIET", 17);
   ("SYNCHRONIZE_BASHFUL", 18); ("SYNCHRONIZE_RASH", 19); ("SYNCHRONIZE_CALM", 20);
   ("SYNCHRONIZE_GENTLE", 21); ("SYNCHRONIZE_SASSY", 22); ("SYNCHRONIZE_CAREFUL", 23);
   ("SYNCHRONIZE_QUIRKY", 24); ("CUTE_CHARM_F", 25); ("CUTE_CHARM_M", 26); ("MAGNET_PULL", 27);
   ("STATIC", 28); ("HARVEST", 29); ("FLASH_FIRE", 30); ("STORM_DRAIN", 31); ("PRESSURE", 32);
   ("HUSTLE", 32); ("VITAL_SPIRIT", 32); ("SUCTION_CUPS", 33); ("STICKY_HOLD", 33);
   ("COMPOUND_EYES", 34); ("SUPER_LUCK", 34); ("ARENA_TRAP", 35); ("ILLUMINATE", 35);
   ("NO_GUARD", 35)].

(** enums/method.py:9-37. *)
Definition Method : list (string * N) :=
  [("NONE", 0); ("METHOD_1", 1); ("METHOD_1_REVERSE", 2); ("METHOD_2", 3); ("METHOD_4", 4);
   ("XD_COLO", 5); ("CHANNEL", 6); ("EBRED", 7); ("EBRED_SPLIT", 8); ("EBRED_ALTERNATE", 9);
   ("EBRED_PID", 10); ("RSFRLGBRED", 11); ("RSFRLGBRED_SPLIT", 12); ("RSFRLGBRED_ALTERNATE", 13);
   ("RSFRLGBRED_MIXED", 14); ("CUTE_CHARM_DPPT", 15); ("CUTE_CHARM_HGSS", 16); ("METHOD_J", 17);
   ("METHOD_K", 18); ("POKERADAR", 19); ("WONDERCARD_IVS", 20); ("METHOD_5_IVS", 21);
   ("METHOD_5_CGEAR", 22); ("METHOD_5", 23)].

(** enums/language.py:8-14. *)
Definition Language : list (string * N) :=
  [("ENGLISH", 0); ("FRENCH", 1); ("GERMAN", 2); ("ITALIAN", 3); ("JAPANESE", 4); ("KOREAN", 5);
   ("SPANISH", 6)].

(** enums/ds_type.py:9-11. *)
Definition DSType : list (string * N) :=
  [("DS", 0); ("DSI", 1); ("DS3", 2)].

(** enums/la_area.py:9-15. *)
Definition LAArea : list (string * N) :=
  [("JUBILIFE_VILLAGE", 0); ("OBSIDIAN_FIELDLANDS", 1); ("CRIMSON_MIRELANDS", 2);
   ("COBALT_COASTLANDS", 3); ("CORONET_HIGHLANDS", 4); ("ALABASTER_ICELANDS", 5);
   ("ANCIENT_RETREAT", 6)].

(** enums/la_time.py:9-12. *)
Definition LATime : list (string * N) :=
  [("DAWN", 0); ("DAY", 1); ("DUSK", 2); ("NIGHT", 3)].

(** enums/la_weather.py:9-17. *)
Definition LAWeather : list (string * N) :=
  [("NONE", 0); ("SUNNY", 1); ("CLOUDY", 2); ("RAIN", 3); ("SNOW", 4); ("DROUGHT", 5); ("FOG", 6);
   ("RAINSTORM", 7); ("SNOWSTORM", 8)].

(** An IntEnum: the value of a name, and the member of a value, [Enum(value)]. A later name with the
    value of an earlier one is an alias of the earlier member; a value that no member has raises
    ValueError (here [None]). *)
Definition value_of (e : list (string * N)) (name : string) : option N :=
  option_map snd (find (fun m => String.eqb (fst m) name) e).
Definition member_of (e : list (string * N)) (value : N) : option string :=
  option_map fst (find (fun m => (snd m =? value)%N) e).
