(** Property C95: how many of the 2^32 seeds give an encounter, and one of each nature.
    Also C85: one of each species. *)
From Coq Require Import NArith List Lia.
From Verif Require Import Base.Word Model.Gen3State Model.Gen3Area Model.Gen3Wild Spec.LcrngSpec Spec.Gen3WildSpec Spec.CountSpec
  Spec.SlotShareSpec Spec.WildRateSpec Proofs.WildRate Properties.P_Gen3.
Import ListNotations.
Open Scope list_scope.
Open Scope N_scope.

(** Rock Smash in Ruby, Sapphire and Emerald finds a Pokemon if a rand modulo 2880 is below
    16 times the rate of the area. At any one advance that is so for this many seeds, ... *)
Theorem C95_rock_smash : forall fuel junk g area initial delay,
  length junk = 6%nat -> search_ends g area -> 2^31 <= N.of_nat fuel -> initial + delay < 2^32 ->
  needs_check g = true ->
  how_many (fun s => one_found (fun _ => true) (wild_generate fuel junk g s delay initial 1 area)) (2^32) =
  2^16 * below_in_2880 (16 * a_rock_rate area).
Proof. exact rock_found. Qed.
Print Assumptions C95_rock_smash.
(** ... the others find nothing, and all other kinds of encounters always find one. *)
Theorem C95_found_or_none : forall fuel junk g area initial delay,
  length junk = 6%nat -> search_ends g area -> 2^31 <= N.of_nat fuel -> initial + delay < 2^32 ->
  how_many (fun s => one_found (fun _ => true) (wild_generate fuel junk g s delay initial 1 area)) (2^32) +
  how_many (fun s => none_found (wild_generate fuel junk g s delay initial 1 area)) (2^32) = 2^32.
Proof. exact found_or_none. Qed.
Print Assumptions C95_found_or_none.
Theorem C95_always_found : forall fuel junk g area initial delay,
  length junk = 6%nat -> search_ends g area -> 2^31 <= N.of_nat fuel -> initial + delay < 2^32 ->
  needs_check g = false ->
  how_many (fun s => one_found (fun _ => true) (wild_generate fuel junk g s delay initial 1 area)) (2^32) = 2^32.
Proof. exact always_found. Qed.
Print Assumptions C95_always_found.
(** Where no rand decides whether there is an encounter, natures are as even as 65536 values
    allow, whatever the area, the method and the advance ... *)
Theorem C95_natures : forall fuel junk g area initial delay,
  length junk = 6%nat -> search_ends g area -> 2^31 <= N.of_nat fuel -> initial + delay < 2^32 ->
  forall n, needs_check g = false -> Lead_SYNCHRONIZE_QUIRKY < w_lead g -> n < 25 ->
  how_many (fun s => one_found (fun st => g_nature st =? n) (wild_generate fuel junk g s delay initial 1 area)) (2^32) =
  2^16 * with_remainder (2^16) 25 n.
Proof. exact nature_rate. Qed.
Print Assumptions C95_natures.
(** ... and a lead with Synchronize passes its nature on for at least half of the seeds. *)
Theorem C95_synchronize : forall fuel junk g area initial delay,
  length junk = 6%nat -> search_ends g area -> 2^31 <= N.of_nat fuel -> initial + delay < 2^32 ->
  needs_check g = false -> w_lead g <= Lead_SYNCHRONIZE_QUIRKY ->
  2^31 <= how_many (fun s => one_found (fun st => g_nature st =? w_lead g) (wild_generate fuel junk g s delay initial 1 area)) (2^32).
Proof. exact synchronize_rate. Qed.
Print Assumptions C95_synchronize.
(** C85, for encounters: species by the library's bounds, which are one roll early. *)
Theorem C85_species_frequency_actual : forall fuel junk g area initial delay,
  length junk = 6%nat -> search_ends g area -> 2^31 <= N.of_nat fuel -> initial + delay < 2^32 ->
  forall sp, needs_check g = false -> w_lead g <> Lead_MAGNET_PULL -> w_lead g <> Lead_STATIC ->
  how_many (fun s => one_found (fun st => g_species st =? sp) (wild_generate fuel junk g s delay initial 1 area)) (2^32) =
  2^16 * species_share 0 (library_bounds (w_encounter g)) (slots_of area (w_encounter g)) sp.
Proof. exact species_rate. Qed.
Print Assumptions C85_species_frequency_actual.

(** The settings of the examples of generation 3, with and without a lead. A rate of 20
    finds a Pokemon for 7360 of 65536 rands, one of 180 or more for all. *)
Example C95_case :
  search_ends (ex_gen Lead_NONE Encounter_GRASS Game_EMERALD) ex_area /\
  search_ends (ex_gen 3 Encounter_GRASS Game_EMERALD) ex_area /\
  search_ends (ex_gen Lead_NONE Encounter_ROCK_SMASH Game_EMERALD) ex_area /\
  needs_check (ex_gen Lead_NONE Encounter_ROCK_SMASH Game_EMERALD) = true /\
  needs_check (ex_gen Lead_NONE Encounter_GRASS Game_EMERALD) = false /\
  Lead_SYNCHRONIZE_QUIRKY < w_lead (ex_gen Lead_NONE Encounter_GRASS Game_EMERALD) /\
  one_found (fun st => g_nature st =? 12) (wild_generate 2000 junk (ex_gen 3 Encounter_GRASS Game_EMERALD) 7 3 12 1 ex_area) = true /\
  none_found (wild_generate 2000 junk (ex_gen Lead_NONE Encounter_ROCK_SMASH Game_EMERALD) 1 0 0 1 ex_area) = true /\
  below_in_2880 (16 * 20) = 7360 /\ below_in_2880 (16 * 180) = 65536 /\ below_in_2880 (16 * 255) = 65536 /\
  with_remainder (2^16) 25 10 = 2622 /\ with_remainder (2^16) 25 11 = 2621.
Proof.
  assert (K : forall lead e, In e [Encounter_GRASS; Encounter_ROCK_SMASH] -> w_lead (ex_gen lead e Game_EMERALD) <> Lead_CUTE_CHARM_M ->
    w_lead (ex_gen lead e Game_EMERALD) <> Lead_CUTE_CHARM_F -> search_ends (ex_gen lead e Game_EMERALD) ex_area).
  { intros lead e [<-|[<-|[]]] A B; (split; [apply ex_setting|]); (split; [|split; assumption]);
    repeat constructor; vm_compute; try discriminate; reflexivity. }
  do 3 (split; [apply K; [cbn; auto|vm_compute; discriminate..]|]). repeat split; now vm_compute.
Qed.
