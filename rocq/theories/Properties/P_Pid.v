(** Property C111: which PIDs can come up. *)
From Coq Require Import NArith List.
From Verif Require Import Base.Word Model.Gen3State Model.Gen3Area Model.Gen3Wild
  Spec.LcrngSpec Spec.Gen3Spec Spec.Gen3WildSpec Spec.PidSpec Proofs.PidProofs Properties.P_Gen3.
Import ListNotations.
Open Scope N_scope.

(** Every state of a run has a PID that two rands in a row make. *)
Theorem C111_states : forall fuel junk g seed delay initial max area l,
  length junk = 6%nat -> setting_ok g area -> seed < 2^32 -> initial + delay < 2^32 -> initial + max <= 2^32 ->
  wild_generate fuel junk g seed delay initial max area = Ok l -> forall st, In st l -> occurs (g_pid st).
Proof. exact generated_occurs. Qed.
Print Assumptions C111_states.
(** Which those are, from the two halves. *)
Theorem C111_which : forall lo hi, lo < 65536 ->
  (occurs (lo + 65536 * hi) <->
   exists x, x < 65536 /\ hi = (0x41C64E6D * lo + (0x41C64E6D * x + 0x6073) / 65536 mod 65536) mod 65536).
Proof. exact halves. Qed.
Print Assumptions C111_which.
(** For each low half 45880 of the 65536 high halves... *)
Theorem C111_how_many_for_a_half : forall lo, lo < 65536 ->
  exists l, NoDup l /\ N.of_nat (length l) = 45880 /\ forall hi, In hi l <-> occurs (lo + 65536 * hi).
Proof. exact highs_list. Qed.
Print Assumptions C111_how_many_for_a_half.
(** ...and 3006791680 of the 2^32 PIDs in all, about 70%. *)
Theorem C111_how_many : exists l, NoDup l /\ N.of_nat (length l) = 3006791680 /\ forall pid, In pid l <-> occurs pid.
Proof. exact all_pids. Qed.
Print Assumptions C111_how_many.
(** A PID of the others for every low half. *)
Theorem C111_never : forall lo, lo < 65536 -> ~ occurs (lo + 65536 * ((0x41C64E6D * lo + 4) mod 65536)).
Proof. exact never. Qed.
Print Assumptions C111_never.
(** So no wild search finds the PID 0x00040000, whatever the seed, advances and settings. *)
Theorem C111_no_search_finds : forall fuel junk g seed delay initial max area l,
  length junk = 6%nat -> setting_ok g area -> seed < 2^32 -> initial + delay < 2^32 -> initial + max <= 2^32 ->
  wild_generate fuel junk g seed delay initial max area = Ok l -> ~ In 0x40000 (map g_pid l).
Proof.
  intros fuel junk g seed delay initial max area l Hj Hs H1 H2 H3 H Hin. apply in_map_iff in Hin. destruct Hin as (st & E & Hst).
  pose proof (generated_occurs _ _ _ _ _ _ _ _ _ Hj Hs H1 H2 H3 H st Hst) as O. rewrite E in O. exact (never 0 eq_refl O).
Qed.
Print Assumptions C111_no_search_finds.
(** Advance 12 of the run in P_Gen3.v has a PID that occurs; so does 0; 0x98281234 is one of the PIDs that never do. *)
Example C111_case :
  setting_ok (ex_gen 3 Encounter_GRASS Game_EMERALD) ex_area /\
  rmap (map g_pid) (wild_generate 2000 junk (ex_gen 3 Encounter_GRASS Game_EMERALD) 7 3 12 1 ex_area) = Ok [3294637337] /\
  occurs 3294637337 /\ occurs 0 /\ ~ occurs 0x98281234.
Proof.
  split; [apply ex_setting|]. split; [now vm_compute|].
  split; [exists 3590529796; now vm_compute|]. split; [exists 171270561; now vm_compute|].
  exact (never 0x1234 eq_refl).
Qed.
