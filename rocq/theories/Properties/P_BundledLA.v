(** C73: the bundled files of Legends Arceus. *)
From Coq Require Import NArith ZArith QArith List Bool.
From Verif Require Import Base.Word Model.Flatbuf Model.FbsLA Model.EncounterLA Model.BundledLA
  Spec.FloatSpec Spec.FbsLASpec Spec.EncounterLASpec Spec.BundledLASpec Proofs.LaLitCommon Proofs.BundledProofsLA.
Import ListNotations.
Open Scope N_scope.

(** C73. Every file of the package loads: every table of the file fits the records, and
    the area under each id is as C61 says. *)
Theorem C73_areas_load : forall k, In k map_areas ->
  exists mults infos file tables lookup d,
    ENCOUNTER_MULTIPLIER_LA = Ok mults /\ POKE_MISC_LA = Ok infos /\ encounter_file k = Ok file /\
    etable_table file = Ok (tables, lookup) /\ encounter_information_la k = Ok d /\
    is_dict mults /\ is_dict infos /\ Forall (table_fits mults infos) tables /\
    is_dict d /\ forall id, area_under mults infos tables d id.
Proof.
  intros k H. destruct (files k H) as (file & E & T & _).
  exists mults, infos, file, (tables_of k). eexists. exists (areas_of k).
  split; [exact mults_ok|]. split; [exact infos_ok|]. split; [exact E|]. split; [exact T|].
  split; [exact (information k H)|]. split; [exact mults_is_dict|]. split; [exact infos_is_dict|].
  split; [exact (tables_fit k H)|exact (areas_under k H)].
Qed.
Print Assumptions C73_areas_load.

(** Outside the listed tables, at every time and in every weather, calc_slot returns a slot
    with weight, in binary64 arithmetic for every binary32 rand below 1. *)
Theorem C73_slots_have_weight_partial : forall k d id a,
  In k map_areas -> encounter_information_la k = Ok d -> In (id, a) d -> ~ In id (no_weight k) ->
  forall time weather rand, (time < 4)%nat -> (weather < 9)%nat ->
  float32 rand -> (0 <= value rand)%Q -> (value rand < 1)%Q ->
  exists s, calc_slot Numba a rand time weather = Ok s /\ In s (al_slots a) /\ (0 < weight time weather s)%Q.
Proof. exact bundled_choice. Qed.
Print Assumptions C73_slots_have_weight_partial.
(** In each listed table there are a time and a weather at which calc_slot returns a slot
    without weight, for every rand. *)
Theorem C73_slots_have_weight_refuted : forall k id, In k map_areas -> In id (no_weight k) ->
  exists d a time weather s, encounter_information_la k = Ok d /\ In (id, a) d /\
    (time < 4)%nat /\ (weather < 9)%nat /\
    (weight time weather s == 0)%Q /\ forall rand, calc_slot Numba a rand time weather = Ok s.
Proof. exact bundled_no_weight. Qed.
Print Assumptions C73_slots_have_weight_refuted.

(** Levels, boosts included, are a range within 1 to 100, except in the one listed table. *)
Theorem C73_levels_partial : forall k d id a s,
  In k map_areas -> encounter_information_la k = Ok d -> In (id, a) d -> ~ In id (bad_levels k) ->
  In s (al_slots a) -> 1 <= la_min_level s /\ la_min_level s <= la_max_level s /\ la_max_level s <= 100.
Proof. exact bundled_levels. Qed.
Print Assumptions C73_levels_partial.
Theorem C73_levels_refuted : forall k id, In k map_areas -> In id (bad_levels k) ->
  exists d a, encounter_information_la k = Ok d /\ In (id, a) d /\
    exists s, In s (al_slots a) /\
      ~ (1 <= la_min_level s /\ la_min_level s <= la_max_level s /\ la_max_level s <= 100).
Proof. exact bundled_bad_levels. Qed.
Print Assumptions C73_levels_refuted.

(** The first areas of the Cobalt Coastlands: number of slots, and the first slot's species
    and levels; and the number of tables in each area. *)
Example C73_case :
  map (fun k => rmap (fun d => N.of_nat (length d)) (encounter_information_la k)) map_areas =
    [Ok 360; Ok 385; Ok 317; Ok 349; Ok 368] /\
  rmap (fun d => map (fun x => (fst x, map (fun s => (la_species s, la_min_level s, la_max_level s)) (al_slots (snd x))))
          (firstn 2 d)) (encounter_information_la COBALT_COASTLANDS) =
    Ok [(7663389058922240818, [(66, 24, 27); (66, 39, 42); (67, 31, 34); (67, 46, 49); (198, 24, 27); (198, 39, 42)]);
        (7663390158433869029, [(422, 31, 34); (422, 46, 49)])].
Proof.
  split.
  - cbn [map map_areas]. rewrite !information by (cbn; auto 10). vm_compute. reflexivity.
  - rewrite !information by (cbn; auto 10). vm_compute. reflexivity.
Qed.
