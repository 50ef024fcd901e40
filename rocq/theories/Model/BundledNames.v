(** data/encounter/__init__.py:439-442. *)
From Coq Require Import NArith List.
From Verif Require Import Model.NameTrie Model.TableNames.

(** ENCOUNTER_TABLE_NAMES_LA, the dict from int(key) to name of the JSON file. The order of
    its items is that of the trie, not that of the file. *)
Definition ENCOUNTER_TABLE_NAMES_LA : list (N * list N) := items nil table_names.
