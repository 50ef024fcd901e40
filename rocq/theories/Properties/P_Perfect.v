(** Property C114: which Pokemon with six IVs of 31 can be met. *)
From Coq Require Import NArith List Bool Lia.
From Verif Require Import Base.Word Model.Gen3State Model.Gen3Area Model.Gen3Wild
  Spec.Gen3Spec Spec.Gen3WildSpec Spec.CountSpec Spec.WildRateSpec Spec.PlaceSpec Spec.PerfectSpec
  Proofs.PerfectProofs Proofs.PerfectCount Properties.P_Gen3 Properties.P_Place.
Import ListNotations.
Open Scope list_scope.
Open Scope N_scope.

(** C114. Without Synchronize, these and no other PIDs can come with six IVs of 31, at any place: six by Method 1, two by Method 2 and
    four by Method 4. *)
Theorem C114_no_synchronize : forall fuel junk g area delay initial pid,
  length junk = 6%nat -> 2^31 <= N.of_nat fuel -> initial + delay < 2^32 -> plain_place g area ->
  Lead_SYNCHRONIZE_QUIRKY < w_lead g ->
  (can_be_met fuel junk g area delay initial pid best_ivs <-> In pid (plain_best_pids (w_method g))).
Proof. exact best_plain. Qed.
Print Assumptions C114_no_synchronize.
(** With Synchronize of the PID's nature, by Method 2 four more. *)
Theorem C114_synchronize : forall fuel junk g area delay initial pid,
  length junk = 6%nat -> 2^31 <= N.of_nat fuel -> initial + delay < 2^32 -> plain_place g area ->
  w_lead g = pid mod 25 ->
  (can_be_met fuel junk g area delay initial pid best_ivs <-> In pid (best_pids (w_method g))).
Proof. exact best_sync. Qed.
Print Assumptions C114_synchronize.
(** No lead allows any other. *)
Theorem C114_no_others : forall fuel junk g area delay initial pid,
  length junk = 6%nat -> 2^31 <= N.of_nat fuel -> initial + delay < 2^32 -> plain_place g area ->
  can_be_met fuel junk g area delay initial pid best_ivs -> In pid (best_pids (w_method g)).
Proof. exact best_only. Qed.
Print Assumptions C114_no_others.
(** How many of the 2^32 seeds give one: 20 by Method 1, 3 by Method 2 and 6 by Method 4 without Synchronize; up to 70, 33 and 34 with
    the right one and as few as 12, 2 and 5 with a wrong one. *)
Theorem C114_how_many : forall fuel junk g area delay initial,
  length junk = 6%nat -> 2^31 <= N.of_nat fuel -> initial + delay < 2^32 -> plain_place g area ->
  how_many (fun seed => one_found (fun st => has_best_ivs (g_ivs st)) (wild_generate fuel junk g seed delay initial 1 area)) (2^32) =
  best_seeds (w_method g) (w_lead g).
Proof. exact best_count. Qed.
Print Assumptions C114_how_many.
(** The natures, and runs that give such Pokemon; C113_case has places that meet the hypotheses. *)
Example C114_case :
  map (fun pid => pid mod 25) best_pids_1 = [15; 15; 20; 6; 10; 15] /\
  map (fun pid => pid mod 25) best_pids_2 = [23; 9; 14; 14; 0; 19] /\
  map (fun pid => pid mod 25) best_pids_4 = [15; 14; 10; 23] /\
  let found g s := rmap (map (fun st => (g_pid st, g_ivs st))) (wild_generate 2000 junk g s 0 0 1 ex_area) in
  let none := ex_gen Lead_NONE Encounter_SURFING Game_EMERALD in
  Lead_SYNCHRONIZE_QUIRKY < w_lead none /\ method_1 none /\
  best_seeds (w_method none) (w_lead none) = 20 /\
  best_seeds 1 15 = 70 /\ best_seeds Method_METHOD_2 14 = 33 /\ best_seeds Method_METHOD_4 23 = 34 /\
  found none 2544745335 = Ok [(0xE9375A48, best_ivs)] /\
  found (ex_gen 15 Encounter_OLD_ROD Game_EMERALD) 654045388 = Ok [(0x685011A9, best_ivs)].
Proof. repeat split; try discriminate; vm_compute; reflexivity. Qed.
