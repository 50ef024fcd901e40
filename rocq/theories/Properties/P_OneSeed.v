(** C99: the advances of one seed. *)
From Coq Require Import NArith List Bool.
From Verif Require Import Base.Word Model.Lcrng32 Model.Lcrng64 Model.LcrngClasses Model.Gen3State Model.Gen3Area Model.Gen3Wild
  Spec.LcrngSpec Spec.Gen3WildSpec Spec.CountSpec Spec.SlotShareSpec Spec.WildRateSpec
  Proofs.Gen3Generate Proofs.OneSeed Properties.P_Gen3 Properties.P_WildRate.
Import ListNotations.
Open Scope N_scope.

(** C99. Whatever some seed gives at its first advance, every seed gives at some advance. *)
Theorem C99_reached : forall fuel junk g seed seed' area, seed < 2^32 -> seed' < 2^32 ->
  exists i, i < 2^32 /\ wild_generate fuel junk g seed 0 i 1 area =
    rmap (map (at_advance i)) (wild_generate fuel junk g seed' 0 0 1 area).
Proof. exact one_seed_reaches. Qed.
Print Assumptions C99_reached.

(** Among its 2^32 advances every kind of result comes up as often as among the 2^32 seeds.
    A kind does not speak of the number of the advance. *)
Theorem C99_as_often : forall fuel junk g seed area (kind : res (list gstate) -> bool), seed < 2^32 ->
  (forall i x, kind (rmap (map (at_advance i)) x) = kind x) ->
  how_many (fun i => kind (wild_generate fuel junk g seed 0 i 1 area)) (2^32) =
  how_many (fun s => kind (wild_generate fuel junk g s 0 0 1 area)) (2^32).
Proof. exact one_seed_counts. Qed.
Print Assumptions C99_as_often.

(** So the frequencies of C95 and C85 are those of the advances of each single seed. *)
Theorem C99_natures : forall fuel junk g area seed n,
  length junk = 6%nat -> search_ends g area -> 2^31 <= N.of_nat fuel -> seed < 2^32 ->
  needs_check g = false -> Lead_SYNCHRONIZE_QUIRKY < w_lead g -> n < 25 ->
  how_many (fun i => one_found (fun st => g_nature st =? n) (wild_generate fuel junk g seed 0 i 1 area)) (2^32) =
  2^16 * with_remainder (2^16) 25 n.
Proof.
  intros fuel junk g area seed n Hj He Hf Hs Hn Hl H25.
  rewrite (C99_as_often fuel junk g seed area (one_found (fun st => g_nature st =? n)) Hs).
  - exact (C95_natures fuel junk g area 0 0 Hj He Hf eq_refl n Hn Hl H25).
  - intros i [[|st [|? ?]]|e]; reflexivity.
Qed.
Print Assumptions C99_natures.
Theorem C99_species : forall fuel junk g area seed sp,
  length junk = 6%nat -> search_ends g area -> 2^31 <= N.of_nat fuel -> seed < 2^32 ->
  needs_check g = false -> w_lead g <> Lead_MAGNET_PULL -> w_lead g <> Lead_STATIC ->
  how_many (fun i => one_found (fun st => g_species st =? sp) (wild_generate fuel junk g seed 0 i 1 area)) (2^32) =
  2^16 * species_share 0 (library_bounds (w_encounter g)) (slots_of area (w_encounter g)) sp.
Proof.
  intros fuel junk g area seed sp Hj He Hf Hs Hn H1 H2.
  rewrite (C99_as_often fuel junk g seed area (one_found (fun st => g_species st =? sp)) Hs).
  - exact (C85_species_frequency_actual fuel junk g area 0 0 Hj He Hf eq_refl sp Hn H1 H2).
  - intros i [[|st [|? ?]]|e]; reflexivity.
Qed.
Print Assumptions C99_species.
Theorem C99_rock_smash : forall fuel junk g area seed,
  length junk = 6%nat -> search_ends g area -> 2^31 <= N.of_nat fuel -> seed < 2^32 ->
  needs_check g = true ->
  how_many (fun i => one_found (fun _ => true) (wild_generate fuel junk g seed 0 i 1 area)) (2^32) =
  2^16 * below_in_2880 (16 * a_rock_rate area).
Proof.
  intros fuel junk g area seed Hj He Hf Hs Hn.
  rewrite (C99_as_often fuel junk g seed area (one_found (fun _ => true)) Hs).
  - exact (C95_rock_smash fuel junk g area 0 0 Hj He Hf eq_refl Hn).
  - intros i [[|st [|? ?]]|e]; reflexivity.
Qed.
Print Assumptions C99_rock_smash.

(** The same holds for anything computed from a seed of a published generator. *)
Theorem C99_any_function_32 : forall minor p, In p published32 ->
  exists a m, consts_of32 minor p = Ok (a, m) /\
  forall (kind : N -> bool) seed, seed < 2^32 ->
    how_many (fun i => kind (lcrng32_advance a m seed i)) (2^32) = how_many kind (2^32).
Proof. exact any_function_32. Qed.
Print Assumptions C99_any_function_32.
Theorem C99_any_function_64 : forall minor p, In p published64 ->
  exists a m, consts_of64 minor p = Ok (a, m) /\
  forall (kind : N -> bool) seed, seed < 2^64 ->
    how_many (fun i => kind (lcrng64_advance a m seed i)) (2^64) = how_many kind (2^64).
Proof. exact any_function_64. Qed.
Print Assumptions C99_any_function_64.

(** The settings of the examples of generation 3: what seed 0 gives first, seed 1 gives at
    this advance. *)
Example C99_case :
  rmap (map g_pid) (wild_generate 2000 junk (ex_gen 3 Encounter_GRASS Game_EMERALD) 0 0 0 1 ex_area) =
  rmap (map g_pid) (wild_generate 2000 junk (ex_gen 3 Encounter_GRASS Game_EMERALD) 1 0 2338661153 1 ex_area) /\
  search_ends (ex_gen Lead_NONE Encounter_GRASS Game_EMERALD) ex_area.
Proof. split; [now vm_compute|]. exact (proj1 C95_case). Qed.
