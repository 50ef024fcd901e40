(** C102: seeds, delays and advances. *)
From Coq Require Import NArith List Bool Lia.
From Verif Require Import Base.Word Model.Lcrng32 Model.LcrngClasses Model.Gen3State Model.Gen3Area Model.Gen3Wild
  Spec.LcrngSpec Spec.Gen3WildSpec Spec.ShiftSpec Proofs.ShiftProofs Properties.P_Gen3.
Import ListNotations.
Open Scope N_scope.

(** C102. Two runs whose first advances are at the same place of the sequence of seeds give the
    same states, numbered from their own first advance; exceptions and failed rock smash checks
    included. *)
Theorem C102_same_place : forall fuel junk g seed seed' delay delay' k i max area,
  seed < 2^32 -> seed' < 2^32 -> k + i + delay < 2^32 -> i + delay' < 2^32 -> k + i + max <= 2^32 ->
  lcg_steps 32 0x41C64E6D 0x6073 (k + i + delay) seed = lcg_steps 32 0x41C64E6D 0x6073 (i + delay') seed' ->
  wild_generate fuel junk g seed delay (k + i) max area =
  rmap (map (later k)) (wild_generate fuel junk g seed' delay' i max area).
Proof. exact generate_shift. Qed.
Print Assumptions C102_same_place.

(** A delay is a number of advances that are not counted. *)
Theorem C102_delay : forall fuel junk g seed delay k i max area,
  seed < 2^32 -> k + i + delay < 2^32 -> k + i + max <= 2^32 ->
  wild_generate fuel junk g seed delay (k + i) max area =
  rmap (map (later k)) (wild_generate fuel junk g seed (k + delay) i max area).
Proof.
  intros fuel junk g seed delay k i max area Hs H Hm. apply C102_same_place; try assumption.
  - replace (i + (k + delay)) with (k + i + delay) by lia. exact H.
  - f_equal. lia.
Qed.
Print Assumptions C102_delay.

(** The seed that a reverse class finds going back from any seed gives, that much later, what the
    seed gives. *)
Theorem C102_backwards : forall minor class, In class [PokeRNGRMod; PokeRNGRDiv] ->
  exists a m, consts_of32 minor class = Ok (a, m) /\
  forall fuel junk g seed delay i max area, seed < 2^32 -> i + delay < 2^32 -> i + max <= 2^32 ->
  exists origin, lcrng32_jump a m seed (i + delay) = (origin, Ok origin) /\
    wild_generate fuel junk g origin delay i max area =
    rmap (map (later i)) (wild_generate fuel junk g seed 0 0 max area).
Proof.
  intros minor class Hc. destruct (back_steps minor class Hc) as (a & m & E & B). exists a, m. split; [exact E|].
  intros fuel junk g seed delay i max area Hs H Hm. destruct (B seed (i + delay) Hs H) as (t & J & Ht & S).
  exists t. split; [exact J|].
  pose proof (C102_same_place fuel junk g t seed delay 0 i 0 max area Ht Hs) as K. rewrite !N.add_0_r in K.
  apply K; [exact H|reflexivity|exact Hm|exact S].
Qed.
Print Assumptions C102_backwards.

(** Two advances of seed 0xDEADBEEF, and the same from the seed 1003 steps before. *)
Example C102_case :
  let g := ex_gen 3 Encounter_GRASS Game_EMERALD in
  let states seed delay i := rmap (map (fun st => (g_advance st, g_pid st))) (wild_generate 2000 junk g seed delay i 2 ex_area) in
  rmap (fun c => lcrng32_jump (fst c) (snd c) 0xDEADBEEF 1003) (consts_of32 9 PokeRNGRMod) = Ok (2695765258, Ok 2695765258) /\
  states 0xDEADBEEF 0 0 = Ok [(0, 3211898937); (1, 1117529635)] /\
  states 2695765258 3 1000 = Ok [(1000, 3211898937); (1001, 1117529635)].
Proof. vm_compute. tauto. Qed.
