(** How often generation 3 encounters should turn out some way. *)
From Coq Require Import NArith List.
From Verif Require Import Base.Word Model.Gen3State Model.Gen3Area Model.Gen3Wild Spec.Gen3WildSpec Spec.SlotShareSpec.
Import ListNotations.
Open Scope N_scope.

(** Settings in which every PID search ends (C51): no Cute Charm, and Unown have a letter. *)
Definition search_ends (g : wildgen) (area : area3) : Prop :=
  setting_ok g area /\
  Forall (fun slot => species_of slot = 201 -> form_of slot < 28) (slots_of area (w_encounter g)) /\
  w_lead g <> Lead_CUTE_CHARM_M /\ w_lead g <> Lead_CUTE_CHARM_F.

(** Whether generating one advance gave no encounter, or one of the wanted kind. *)
Definition none_found (r : res (list gstate)) : bool :=
  match r with Ok [] => true | _ => false end.
Definition one_found (wanted : gstate -> bool) (r : res (list gstate)) : bool :=
  match r with Ok [st] => wanted st | _ => false end.

(** Of the 65536 values of a 16-bit rand, those with a remainder modulo 2880 below [t]:
    65536 is 22 times 2880 and 2176 more. *)
Definition below_in_2880 (t : N) : N := 22 * N.min t 2880 + N.min t 2176.

(** The share of the slots of a species: every slot has its interval of rolls, modulo 100. *)
Fixpoint species_share (lo : N) (bounds : list N) (slots : list slot3) (species : N) : N :=
  match bounds, slots with
  | b :: bounds, t :: slots =>
      (if species_of t =? species then share lo b else 0) + species_share b bounds slots species
  | _, _ => 0
  end.
