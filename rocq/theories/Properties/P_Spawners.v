(** C81: the bundled spawners and massive outbreaks of Legends Arceus. *)
From Coq Require Import NArith ZArith List Bool.
From Verif Require Import Base.Word Model.Flatbuf Model.FbsLA Model.EncounterLA Model.BundledLA Model.BundledSpawn Model.FNV
  Spec.FbsLASpec Spec.SpawnSpec Proofs.BundledProofsLA Proofs.SpawnProofs Proofs.SpawnLitOutbreak.
Import ListNotations.
Open Scope N_scope.

(** C81. Every spawner file loads; its two lookups hold every spawner, under its id and
    under its group; every spawner has a position and a range of counts. *)
Theorem C81_spawners_load : forall k, In k map_areas -> exists spawners by_id by_group,
  spawner_information_la k = Ok (spawners, by_id, by_group) /\ spawners <> [] /\
  is_dict by_id /\ (forall id s, In (id, s) by_id <-> In s spawners /\ sp_id s = id) /\
  is_dict by_group /\ (forall id s, In (id, s) by_group <-> In s spawners /\ sp_group s = id) /\
  forall s, In s spawners -> (exists id, sp_id s = Some id) /\ (exists id, sp_group s = Some id) /\ spawner_sane s.
Proof. exact bundled_spawners. Qed.
Print Assumptions C81_spawners_load.

(** A group id tells the spawner, and with it the map. *)
Theorem C81_groups_apart : forall k k' s s', In k map_areas -> In k' map_areas ->
  spawner_of_map k s -> spawner_of_map k' s' -> sp_group s = sp_group s' -> k = k' /\ s = s'.
Proof. exact bundled_groups_apart. Qed.
Print Assumptions C81_groups_apart.

(** The encounter table of a spawner is one of ENCOUNTER_INFORMATION_LA of the same map, or
    else the spawner is one of mass outbreaks and names a lottery; never both. *)
Theorem C81_tables : forall k s, In k map_areas -> spawner_of_map k s ->
  table_of_map k (sp_encounter_table s) /\ (forall lo, ~ lottery_under (sp_encounter_table s) lo) \/
  sp_mass_outbreak s = Some true /\ ~ table_of_map k (sp_encounter_table s) /\
  exists lo, lottery_under (sp_encounter_table s) lo.
Proof. exact bundled_tables. Qed.
Print Assumptions C81_tables.

(** Every lottery belongs to some spawner. For each such spawner, every hash in the lottery
    is the hash of the empty string, outside the common list, or names a group whose tables
    of both waves belong to the map of the spawner. *)
Theorem C81_outbreaks : forall h lo, lottery_under h lo ->
  (exists k s, In k map_areas /\ spawner_of_map k s /\ sp_encounter_table s = h) /\
  forall k s, In k map_areas -> spawner_of_map k s -> sp_encounter_table s = h ->
  forall x, In x (lo_common lo ++ lo_rare_1 lo ++ lo_rare_2 lo) ->
  x = no_group /\ ~ In x (lo_common lo) \/
  exists g, group_under x g /\ table_of_map k (gr_first g) /\ gr_waves g <> [] /\ Forall (table_of_map k) (gr_waves g).
Proof. exact bundled_outbreaks. Qed.
Print Assumptions C81_outbreaks.

(** Every group is in some lottery. *)
Theorem C81_groups_drawn : forall h g, group_under h g ->
  exists k lo, lottery_under k lo /\ In h (lo_common lo ++ lo_rare_1 lo ++ lo_rare_2 lo).
Proof. exact bundled_groups_drawn. Qed.
Print Assumptions C81_groups_drawn.

(** The number of spawners of each map, the first spawner of the Obsidian Fieldlands, the
    lotteries with the sizes of their lists, and the first group. *)
Example C81_case :
  map (fun k => rmap (fun x => N.of_nat (length (fst (fst x)))) (spawner_information_la k)) map_areas =
    [Ok 382; Ok 472; Ok 337; Ok 479; Ok 377] /\
  rmap (fun x => firstn 1 (fst (fst x))) (spawner_information_la OBSIDIAN_FIELDLANDS) =
    Ok [mkSpawner (Some 10143690705959302437%Z) (Some 9797467547619143255%Z)
          (Some (mkVec3 (Some 1143350886) (Some 1105251533) (Some 1120560742)))
          (Some 2%Z) (Some 3%Z) None None None (Some 9489890319879407414%Z)] /\
  rmap (fun x => map (fun y => (fst y, N.of_nat (length (lo_full (snd y))))) (firstn 3 (snd x))) NHO_LOTTERY_TABLE_LA =
    Ok [(Some 12084185435863422504%Z, 99); (Some 8942212184839584831%Z, 99); (Some 8942213284351213042%Z, 6)] /\
  rmap (fun x => firstn 1 (snd x)) NHO_GROUP_TABLE_LA =
    Ok [(Some 17802427334916700445%Z,
         mkGroup8a (Some 17802427334916700445%Z)
           [Some 8992720294536739067%Z; Some 8992719195025110856%Z; Some 8992722493559995489%Z]
           (Some 13160932974264785135%Z))] /\
  no_group = Some (Z.of_N (fnv1a_64 [])).
Proof.
  split; [cbn [map map_areas]; rewrite !spawners_loaded by (cbn; auto 10); vm_compute; reflexivity|].
  split; [rewrite spawners_loaded by (cbn; auto 10); vm_compute; reflexivity|].
  split; [rewrite lotteries_loaded; vm_compute; reflexivity|].
  split; [rewrite groups_loaded; vm_compute; reflexivity|reflexivity].
Qed.
