(** Property C85: how many of the 2^32 seeds give each slot of a generation 3 area, and
    each level of a slot. *)
From Coq Require Import NArith List Lia.
From Verif Require Import Base.Word Model.Gen3State Model.Gen3Area Spec.Gen3Spec Spec.Gen3WildSpec Spec.CountSpec Spec.SlotShareSpec Proofs.SlotShares.
Import ListNotations.
Open Scope list_scope.
Open Scope N_scope.

(** The bounds of the slots are one roll early (C44). A slot that an area has several times
    gets all their shares. *)
Theorem C85_slot_frequency_total_actual : forall area e slot, area_shape area ->
  how_many (fun s => gives (snd (calculate_hslot area s e)) slot) (2^32) =
  2^16 * total_share 0 (library_bounds e) (slots_of area e) slot.
Proof. exact slot_frequency_total. Qed.
Print Assumptions C85_slot_frequency_total_actual.
(** For areas without equal slots: by number of the slot. *)
Theorem C85_slot_frequency_actual : forall area e k slot,
  area_shape area -> NoDup (slots_of area e) -> nth_error (slots_of area e) k = Some slot ->
  how_many (fun s => gives (snd (calculate_hslot area s e)) slot) (2^32) = 2^16 * slot_share (library_bounds e) k.
Proof. exact slot_frequency. Qed.
Print Assumptions C85_slot_frequency_actual.
(** So for every kind of encounter the first slot comes up too rarely and the last one,
    the rarest, too often. *)
Theorem C85_slot_frequency_refuted : forall area e, area_shape area -> NoDup (slots_of area e) ->
  exists slot last, nth_error (slots_of area e) 0 = Some slot /\
    nth_error (slots_of area e) (length (slots_of area e) - 1) = Some last /\
  how_many (fun s => gives (snd (calculate_hslot area s e)) slot) (2^32) < 2^16 * slot_share (game_bounds e) 0 /\
  2^16 * slot_share (game_bounds e) (length (slots_of area e) - 1) <
  how_many (fun s => gives (snd (calculate_hslot area s e)) last) (2^32).
Proof. exact slot_share_wrong. Qed.
Print Assumptions C85_slot_frequency_refuted.
(** Levels are as even as 65536 values allow. *)
Theorem C85_level_frequency_partial : forall slot v, slot_ok slot -> s_min_level slot <= v <= s_max_level slot ->
  how_many (fun s => res_eqb (snd (calculate_level slot s false)) v) (2^32) =
  2^16 * with_remainder (2^16) (s_max_level slot - s_min_level slot + 1) (v - s_min_level slot).
Proof. exact level_frequency. Qed.
Print Assumptions C85_level_frequency_partial.
(** The rarest grass slots: twice the share of the game. The shares of a table add up. *)
Example C85_case :
  let slots := map (fun i => mkSlot3 i (i + 5) i) [1; 2; 3; 4; 5; 6; 7; 8; 9; 10; 11; 12] in
  NoDup slots /\ slot_ok (mkSlot3 5 9 300) /\
  slot_share (game_bounds Encounter_GRASS) 11 = 655 /\ slot_share (library_bounds Encounter_GRASS) 11 = 1310 /\
  slot_share (game_bounds Encounter_GRASS) 0 = 13120 /\ slot_share (library_bounds Encounter_GRASS) 0 = 12464 /\
  fold_right N.add 0 (map (slot_share (library_bounds Encounter_GRASS)) (seq 0 12)) = 65536 /\
  fold_right N.add 0 (map (slot_share (game_bounds Encounter_SUPER_ROD)) (seq 0 5)) = 65536.
Proof.
  cbv zeta. split.
  - apply (NoDup_map_inv s_species). cbn. repeat constructor; cbn; lia.
  - repeat split; now vm_compute.
Qed.
