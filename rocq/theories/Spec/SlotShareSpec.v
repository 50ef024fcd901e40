(** How often a slot should come up, and how often it does. *)
From Coq Require Import NArith List.
From Verif Require Import Base.Word Model.Gen3Area.
Import ListNotations.
Open Scope N_scope.

(** Of the 65536 values of a 16-bit rand, those whose remainder modulo 100 lies in
    [lo, hi): remainders below 36 have 656 values, the others 655. *)
Definition share (lo hi : N) : N := 655 * (hi - lo) + (N.min hi 36 - N.min lo 36).

(** Where the rolls of the slots end in the games, by encounter type ... *)
Definition game_bounds (e : N) : list N :=
  if e =? Encounter_OLD_ROD then [70; 100]
  else if e =? Encounter_GOOD_ROD then [60; 80; 100]
  else if e =? Encounter_SUPER_ROD then [40; 80; 95; 99; 100]
  else if e =? Encounter_ROCK_SMASH then [60; 90; 95; 99; 100]
  else if e =? Encounter_SURFING then [60; 90; 95; 99; 100]
  else [20; 40; 50; 60; 70; 80; 85; 90; 94; 98; 99; 100].
(** ... and in this library. *)
Definition library_bounds (e : N) : list N :=
  if e =? Encounter_OLD_ROD then [69; 100]
  else if e =? Encounter_GOOD_ROD then [59; 79; 100]
  else if e =? Encounter_SUPER_ROD then [39; 79; 94; 98; 100]
  else if e =? Encounter_ROCK_SMASH then [59; 89; 94; 98; 100]
  else if e =? Encounter_SURFING then [59; 89; 94; 98; 100]
  else [19; 39; 49; 59; 69; 79; 84; 89; 93; 97; 98; 100].
Definition slot_share (bounds : list N) (k : nat) : N := share (nth k (0 :: bounds) 0) (nth k bounds 0).

(** Whether a call returned the slot. *)
Definition gives (r : res slot3) (s : slot3) : bool :=
  match r with
  | Ok t => (s_min_level t =? s_min_level s) && (s_max_level t =? s_max_level s) && (s_species t =? s_species s)
  | Raise _ => false
  end%bool.

(** The share of a slot that may be in a list of slots several times. *)
Fixpoint total_share (lo : N) (bounds : list N) (slots : list slot3) (s : slot3) : N :=
  match bounds, slots with
  | b :: bounds, t :: slots => (if gives (Ok t) s then share lo b else 0) + total_share b bounds slots s
  | _, _ => 0
  end.
