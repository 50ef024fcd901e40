(** PIDs and IVs that can be met somewhere. *)
From Coq Require Import NArith List.
From Verif Require Import Base.Word Model.Gen3State Model.Gen3Area Model.Gen3Wild Spec.Gen3Spec Spec.Gen3WildSpec Spec.WildRateSpec.
Import ListNotations.
Open Scope N_scope.

(** Places and settings with an encounter at every advance, no Unown and no Cute Charm. *)
Definition plain_place (g : wildgen) (area : area3) : Prop :=
  search_ends g area /\ needs_check g = false /\
  Forall (fun slot => species_of slot <> 201) (slots_of area (w_encounter g)).
(** Some seed gives a Pokemon with this PID and these IVs at this place, at one advance. *)
Definition can_be_met (fuel : nat) (junk : list N) (g : wildgen) (area : area3) (delay initial pid : N) (ivs : list N) : Prop :=
  exists seed st, seed < 2^32 /\ wild_generate fuel junk g seed delay initial 1 area = Ok [st] /\ g_pid st = pid /\ g_ivs st = ivs.
(** The PID and IVs that follow from the seed [t] that the choice of slot and level leaves: a nature, then PIDs until one has that
    nature, then IVs. *)
Definition met (g : wildgen) (t pid : N) (ivs : list N) : Prop :=
  exists n f tries, nature_choice (rand_at t) g 0 = (n, f) /\
    (forall j, j < tries -> pid_at (rand_at t) (f + 2 * j) mod 25 <> n) /\
    pid = pid_at (rand_at t) (f + 2 * tries) /\ pid mod 25 = n /\
    ivs = ivs_from (rand_at t (iv1_pos g (f + 2 * tries + 2))) (rand_at t (iv2_pos g (f + 2 * tries + 2))).
(** Two leads that treat natures alike: the same Synchronize, or none of them Synchronize. *)
Definition same_natures (g g' : wildgen) : Prop :=
  w_lead g = w_lead g' \/ (Lead_SYNCHRONIZE_QUIRKY < w_lead g /\ Lead_SYNCHRONIZE_QUIRKY < w_lead g').
