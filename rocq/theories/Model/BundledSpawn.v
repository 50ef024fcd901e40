(** data/encounter/__init__.py:400-406 and 421-432 on the bundled files of Legends Arceus. *)
From Coq Require Import NArith ZArith List Bool.
From Verif Require Import Base.Word Model.Flatbuf Model.FbsLA Model.Trie
  Model.LaSpawn1 Model.LaSpawn2 Model.LaSpawn3 Model.LaSpawn4 Model.LaSpawn5 Model.LaOutbreakGroup Model.LaOutbreakLottery.
Import ListNotations.
Open Scope N_scope.

(** The contents of ha_area{map_area:02d}_spawner.bin, with its length. *)
Definition spawner_trie (map_area : N) : option (trie * N) :=
  match map_area with
  | 1 => Some (spawner_1_trie, spawner_1_size)
  | 2 => Some (spawner_2_trie, spawner_2_size)
  | 3 => Some (spawner_3_trie, spawner_3_size)
  | 4 => Some (spawner_4_trie, spawner_4_size)
  | 5 => Some (spawner_5_trie, spawner_5_size)
  | _ => None
  end.
(** __init__.py:423, read_binary: the bytes of the file; other areas have none. *)
Definition spawner_file (map_area : N) : res (list N) :=
  match spawner_trie map_area with
  | Some (t, size) => Ok (file_bytes t size)
  | None => Raise FileNotFoundError
  end.
(** __init__.py:421-432: one area of SPAWNER_INFORMATION_LA: the list of spawners, the
    lookup by id and the lookup by group. *)
Definition spawner_information_la (map_area : N) :
    res (list spawner * list (option Z * spawner) * list (option Z * spawner)) :=
  rbind (spawner_file map_area) spawner_table.
(** __init__.py:400-406: the lists and the lookups by hash. *)
Definition NHO_LOTTERY_TABLE_LA : res (list lottery * list (option Z * lottery)) :=
  lottery_table (file_bytes outbreak_lottery_trie outbreak_lottery_size).
Definition NHO_GROUP_TABLE_LA : res (list group8a * list (option Z * group8a)) :=
  group_table (file_bytes outbreak_group_trie outbreak_group_size).
