(** data/encounter/__init__.py:321-327 and 392-419 on the bundled files of Legends Arceus. *)
From Coq Require Import NArith ZArith List Bool.
From Verif Require Import Base.Word Model.Flatbuf Model.FbsLA Model.EncounterLA Model.Trie
  Model.LaBytes1 Model.LaBytes2 Model.LaBytes3 Model.LaBytes4 Model.LaBytes5 Model.LaBytesEncount Model.LaBytesMisc.
Import ListNotations.
Open Scope N_scope.

(** enums/la_area.py:9-15, the areas of __init__.py:412-418. *)
Definition OBSIDIAN_FIELDLANDS : N := 1.
Definition CRIMSON_MIRELANDS : N := 2.
Definition COBALT_COASTLANDS : N := 3.
Definition CORONET_HIGHLANDS : N := 4.
Definition ALABASTER_ICELANDS : N := 5.
Definition map_areas : list N :=
  [OBSIDIAN_FIELDLANDS; CRIMSON_MIRELANDS; CORONET_HIGHLANDS; COBALT_COASTLANDS; ALABASTER_ICELANDS].

(** The contents of ha_area{map_area:02d}_encounter.bin, with its length. *)
Definition encounter_trie (map_area : N) : option (trie * N) :=
  match map_area with
  | 1 => Some (area_1_trie, area_1_size)
  | 2 => Some (area_2_trie, area_2_size)
  | 3 => Some (area_3_trie, area_3_size)
  | 4 => Some (area_4_trie, area_4_size)
  | 5 => Some (area_5_trie, area_5_size)
  | _ => None
  end.
(** __init__.py:327, read_binary: the bytes of the file; other areas have none. *)
Definition encounter_file (map_area : N) : res (list N) :=
  match encounter_trie map_area with
  | Some (t, size) => Ok (file_bytes t size)
  | None => Raise FileNotFoundError
  end.
(** __init__.py:392-398. *)
Definition ENCOUNTER_MULTIPLIER_LA : res multipliers :=
  rmap snd (multiplier_table (file_bytes poke_encount_trie poke_encount_size)).
Definition POKE_MISC_LA : res miscs :=
  rmap snd (misc_table (file_bytes poke_misc_trie poke_misc_size)).
(** __init__.py:321-389: one area of ENCOUNTER_INFORMATION_LA, without the cache (C57). *)
Definition encounter_information_la (map_area : N) : res (list (N * areaLA)) :=
  rbind ENCOUNTER_MULTIPLIER_LA (fun mults => rbind POKE_MISC_LA (fun infos =>
  rbind (encounter_file map_area) (load_encounter_tables_la mults infos))).
