(** C82: the names of the encounter tables of Legends Arceus. *)
From Coq Require Import NArith ZArith String List Bool.
From Verif Require Import Base.Word Model.Flatbuf Model.FbsLA Model.FNV Model.NameTrie Model.BundledNames Model.BundledLA Model.BundledSpawn
  Spec.FbsLASpec Spec.TableNameSpec Spec.SpawnSpec Proofs.TableNameProofs.
Import ListNotations.
Open Scope list_scope.
Open Scope N_scope.

(** C82. ENCOUNTER_TABLE_NAMES_LA is a dict; the key of a name is its hash. *)
Theorem C82_keys_are_hashes : is_dict ENCOUNTER_TABLE_NAMES_LA /\
  forall k name, In (k, name) ENCOUNTER_TABLE_NAMES_LA -> fnv1a_64 name = k.
Proof. exact (conj names_is_dict names_hash). Qed.
Print Assumptions C82_keys_are_hashes.

(** Its names are exactly those of the rule, and no two of them have the same hash. *)
Theorem C82_names : forall name, (exists k, In (k, name) ENCOUNTER_TABLE_NAMES_LA) <-> table_name name.
Proof. exact names_rule. Qed.
Print Assumptions C82_names.
Theorem C82_no_collision : forall name name', table_name name -> table_name name' ->
  fnv1a_64 name = fnv1a_64 name' -> name = name'.
Proof. exact hashes_apart. Qed.
Print Assumptions C82_no_collision.

(** Every encounter table that a spawner of the map uses has a name. *)
Theorem C82_spawner_tables_named : forall k s, In k map_areas -> spawner_of_map k s ->
  table_of_map k (sp_encounter_table s) ->
  exists id name, sp_encounter_table s = Some (Z.of_N id) /\ In (id, name) ENCOUNTER_TABLE_NAMES_LA.
Proof. exact spawner_named. Qed.
Print Assumptions C82_spawner_tables_named.

(** The table of the first spawner of the Obsidian Fieldlands, another name with its key, the
    number of names. *)
Example C82_case : In (9489890319879407414, codes "lnd_ex_02") ENCOUNTER_TABLE_NAMES_LA /\
  In (2943184838679454450, codes "gmk_crystal_07_02_01") ENCOUNTER_TABLE_NAMES_LA /\
  N.of_nat (List.length ENCOUNTER_TABLE_NAMES_LA) = 11363.
Proof.
  assert (A : table_name (codes "lnd_ex_02")).
  { apply (Numbered (codes "lnd") (codes "ex") 2); [cbn; tauto|cbn; tauto|reflexivity]. }
  assert (B : table_name (codes "gmk_crystal_07_02_01")).
  { apply (Gimmick3 (codes "crystal") 7 2 1); [cbn; tauto|reflexivity..]. }
  split; [|split].
  - apply names_rule in A as (k & A). rewrite <- (names_hash k _ A) in A. exact A.
  - apply names_rule in B as (k & B). rewrite <- (names_hash k _ B) in B. exact B.
  - unfold ENCOUNTER_TABLE_NAMES_LA. rewrite count_ok. vm_compute. reflexivity.
Qed.
