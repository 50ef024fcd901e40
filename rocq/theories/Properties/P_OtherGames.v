(** C110: games, encounters and methods outside the third generation. *)
From Coq Require Import String NArith List Bool Lia.
From Verif Require Import Base.Word Model.Enums Model.Gen3State Model.Gen3Area Model.Gen3Wild
  Spec.OtherSpec Proofs.OtherProofs Properties.P_Gen3.
Import ListNotations.
Open Scope list_scope.
Open Scope N_scope.

(** C110. A wild generator with a game, an encounter type or a method that the third generation
    does not have refuses to generate: this is false. *)
Theorem C110_refuted : ~ (forall fuel junk t method encounter lead game tid sid seed delay initial max area,
  (outside Game games_3 game \/ outside Encounter encounters_3 encounter \/ outside Method methods_3 method) -> 1 <= max ->
  refused (wild_generate fuel junk (wild_new t method encounter lead game tid sid) seed delay initial max area)).
Proof.
  intros H. destruct (H 2000%nat junk ex_tables 1 0 255 512 12345 54321 7 3 10 1 ex_area) as [e E].
  - left. exists "PLATINUM"%string. split; [cbn; tauto|]. cbn. intuition discriminate.
  - lia.
  - revert E. vm_compute. discriminate.
Qed.
Print Assumptions C110_refuted.

(** Any game without a flag of the third generation is LeafGreen, for every lead, exceptions
    included; *)
Theorem C110_other_games_actual : forall fuel junk t method encounter lead game tid sid seed delay initial max area,
  (forall i, i < 5 -> N.testbit game i = false) ->
  wild_generate fuel junk (wild_new t method encounter lead game tid sid) seed delay initial max area =
  wild_generate fuel junk (wild_new t method encounter lead Game_LEAF_GREEN tid sid) seed delay initial max area.
Proof. exact other_games. Qed.
Print Assumptions C110_other_games_actual.
(** that is every other member of the enum, and every set of them. *)
Theorem C110_members_actual : forall game, outside Game games_3 game -> forall i, i < 5 -> N.testbit game i = false.
Proof. exact members_other. Qed.
Print Assumptions C110_members_actual.

(** Any other encounter type is grass. *)
Theorem C110_other_encounters_actual : forall fuel junk t method encounter lead game tid sid seed delay initial max area,
  outside Encounter encounters_3 encounter ->
  wild_generate fuel junk (wild_new t method encounter lead game tid sid) seed delay initial max area =
  wild_generate fuel junk (wild_new t method Encounter_GRASS lead game tid sid) seed delay initial max area.
Proof. exact outside_is_grass. Qed.
Print Assumptions C110_other_encounters_actual.

(** Any other method is Method 1. *)
Theorem C110_other_methods_actual : forall fuel junk t method encounter lead game tid sid seed delay initial max area,
  outside Method methods_3 method ->
  wild_generate fuel junk (wild_new t method encounter lead game tid sid) seed delay initial max area =
  wild_generate fuel junk (wild_new t 1 encounter lead game tid sid) seed delay initial max area.
Proof. exact other_methods. Qed.
Print Assumptions C110_other_methods_actual.
(** Any other lead is no lead, as it should be. Harvest, Flash Fire and Storm Drain (29 to 31)
    look up the species of the slots, though, and raise if one is not in the personal table. *)
Theorem C110_other_leads_actual : forall fuel junk t method encounter lead game tid sid seed delay initial max area,
  outside Lead leads_3 lead -> 24 < lead ->
  wild_generate fuel junk (wild_new t method encounter lead game tid sid) seed delay initial max area =
  wild_generate fuel junk (wild_new t method encounter Lead_NONE game tid sid) seed delay initial max area \/
  (lead < 32 /\ wild_generate fuel junk (wild_new t method encounter lead game tid sid) seed delay initial max area = Raise IndexError).
Proof. exact other_leads. Qed.
Print Assumptions C110_other_leads_actual.

(** Platinum is LeafGreen even with a lead; headbutting in Emerald is walking through grass. *)
Example C110_case :
  outside Game games_3 512 /\ outside Encounter encounters_3 12 /\
  let run e lead game := rmap (map (fun st => (g_pid st, g_species st, g_level st)))
    (wild_generate 2000 junk (ex_gen lead e game) 7 3 10 2 ex_area) in
  (exists a b, run 0 3 512 = Ok [a; b]) /\ run 0 3 512 <> run 0 3 Game_EMERALD /\
  run 12 3 Game_EMERALD = run 0 3 Game_EMERALD /\ run 12 3 Game_EMERALD <> run 4 3 Game_EMERALD.
Proof.
  split; [exists "PLATINUM"%string; split; [cbn; tauto|cbn; intuition discriminate]|].
  split; [exists "HEADBUTT"%string; split; [cbn; tauto|cbn; intuition discriminate]|].
  vm_compute. split; [eexists; eexists; reflexivity|]. split; [discriminate|]. split; [reflexivity|discriminate].
Qed.
(** METHOD_1_REVERSE gives the states of Method 1, not those of Method 2; Flash Fire those of no
    lead, not those of a Synchronize lead. *)
Example C110_methods_case :
  outside Method methods_3 2 /\ outside Lead leads_3 30 /\
  let run m lead := rmap (map (fun st => (g_pid st, g_ivs st)))
    (wild_generate 2000 junk (wild_new ex_tables m Encounter_GRASS lead Game_EMERALD 12345 54321) 7 3 10 2 ex_area) in
  (exists a b, run 2 255 = Ok [a; b]) /\ run 2 255 = run 1 255 /\ run 2 255 <> run 3 255 /\
  run 1 30 = run 1 255 /\ run 1 30 <> run 1 3.
Proof.
  split; [exists "METHOD_1_REVERSE"%string; split; [cbn; tauto|cbn; intuition discriminate]|].
  split; [exists "FLASH_FIRE"%string; split; [cbn; tauto|cbn; intuition discriminate]|].
  vm_compute. split; [eexists; eexists; reflexivity|]. split; [reflexivity|]. split; [discriminate|]. split; [reflexivity|discriminate].
Qed.
