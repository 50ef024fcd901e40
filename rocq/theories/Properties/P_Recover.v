(** Properties C68 to C70: what outputs say about the seed. *)
From Coq Require Import NArith List.
From Verif Require Import Base.Word Model.Lcrng32 Model.Lcrng64 Model.LcrngClasses Model.MT Model.SFMT
  Model.Xorshift Model.Xoroshiro Model.Gen3State Model.Gen3Area Model.Gen3Wild
  Spec.LcrngSpec Spec.MTHistory Spec.SFMTHistory Spec.XorshiftSpec Spec.Gen3Spec Spec.Gen3WildSpec Spec.RecoverSpec
  Proofs.LcrngRecover Proofs.SeedRecover Proofs.Gen3Recover Properties.P_Gen3.
Import ListNotations.
Open Scope N_scope.

(** C68. Three consecutive outputs of any published generator come from one seed only. *)
Theorem C68_three_outputs_give_the_seed_32 : forall minor p add mult s s',
  In p published32 -> consts_of32 minor p = Ok (add, mult) -> s < 2^32 -> s' < 2^32 ->
  results (lcrng32_next_u16 add mult) 3 s = results (lcrng32_next_u16 add mult) 3 s' -> s = s'.
Proof. exact recover_published32. Qed.
Print Assumptions C68_three_outputs_give_the_seed_32.
Theorem C68_three_outputs_give_the_seed_64 : forall minor p add mult s s',
  In p published64 -> consts_of64 minor p = Ok (add, mult) -> s < 2^64 -> s' < 2^64 ->
  results (lcrng64_next_u32 add mult) 3 s = results (lcrng64_next_u32 add mult) 3 s' -> s = s'.
Proof. exact recover_published64. Qed.
Print Assumptions C68_three_outputs_give_the_seed_64.
(** Two outputs of the Generation 3 and 4 generator leave at most three seeds. *)
Theorem C68_two_outputs_leave_three_seeds : forall l outputs, NoDup l ->
  (forall s, In s l -> s < 2^32 /\ results (lcrng32_next_u16 0x6073 0x41C64E6D) 2 s = outputs) ->
  (length l <= 3)%nat.
Proof. exact at_most_three. Qed.
Print Assumptions C68_two_outputs_leave_three_seeds.
(** Three is reached, so two outputs are not enough. *)
Theorem C68_two_outputs_not_enough :
  Forall (fun s => results (lcrng32_next_u16 0x6073 0x41C64E6D) 2 s = [0x3C45; 0x5BF1])
    [0x6554A76; 0x9747F1B5; 0x283A98F4].
Proof. now repeat constructor. Qed.
Print Assumptions C68_two_outputs_not_enough.
Example C68_case :
  In XDRNGR published32 /\ consts_of32 9 XDRNGR = Ok (0xA170F641, 0xB9B33155) /\
  results (lcrng32_next_u16 0xA170F641 0xB9B33155) 3 0x12345678 = [57158; 6089; 19953] /\
  In BWRNGR published64 /\ consts_of64 7 BWRNGR = Ok (0x9B1AE6E9A384E6F9, 0xDEDCEDAE9638806D) /\
  results (lcrng64_next_u32 0x9B1AE6E9A384E6F9 0xDEDCEDAE9638806D) 3 0x1234567890ABCDEF = [3012856902; 3812751798; 1471183312].
Proof. split; [cbn; auto 10|]. split; [now vm_compute|]. split; [now vm_compute|]. split; [cbn; auto|]. split; now vm_compute. Qed.

(** C69. A PID with the HP, Attack and Defense IVs, drawn by Method 1 or 4 ([k] = 3) or
    Method 2 ([k] = 4), comes from one seed only. *)
Theorem C69_pid_and_ivs_give_the_seed : forall k s s', k = 3 \/ k = 4 -> s < 2^32 -> s' < 2^32 ->
  pid_and_ivs k s = pid_and_ivs k s' -> s = s'.
Proof. exact identify. Qed.
Print Assumptions C69_pid_and_ivs_give_the_seed.
(** So every state of a run shows at which seed its PID began: it lies on the stream of
    the run's seed, and no other seed gives the same PID and IVs. *)
Theorem C69_states_give_the_seed : forall fuel junk g seed delay initial max area l,
  length junk = 6%nat -> setting_ok g area ->
  seed < 2^32 -> initial + delay < 2^32 -> initial + max <= 2^32 ->
  wild_generate fuel junk g seed delay initial max area = Ok l ->
  forall i st, nth_error l (N.to_nat i) = Some st ->
  let k := if w_method g =? Method_METHOD_2 then 4 else 3 in
  exists p, let s := lcg_steps 32 0x41C64E6D 0x6073 (initial + i + delay + p) seed in
    pid_and_ivs k s = (g_pid st, firstn 3 (g_ivs st)) /\
    forall s', s' < 2^32 -> pid_and_ivs k s' = (g_pid st, firstn 3 (g_ivs st)) -> s' = s.
Proof. exact generated_identify. Qed.
Print Assumptions C69_states_give_the_seed.
(** The PID alone is not enough: these three seeds share it. *)
Theorem C69_pid_not_enough :
  map (pid_and_ivs 3) [0x6554A76; 0x9747F1B5; 0x283A98F4] =
  [(0x5BF13C45, [11; 24; 18]); (0x5BF13C45, [17; 25; 8]); (0x5BF13C45, [22; 26; 30])].
Proof. now vm_compute. Qed.
Print Assumptions C69_pid_not_enough.
(** Advance 12 of the run in P_Gen3.v, found from its PID and IVs. *)
Example C69_case :
  rmap (map (fun st => (g_pid st, firstn 3 (g_ivs st))))
    (wild_generate 2000 junk (ex_gen 3 Encounter_GRASS Game_EMERALD) 7 3 12 1 ex_area)
  = Ok [(3294637337, [19; 10; 2])] /\
  pid_and_ivs 3 (lcg_steps 32 0x41C64E6D 0x6073 (12 + 0 + 3 + 400) 7) = (3294637337, [19; 10; 2]).
Proof. split; now vm_compute. Qed.

(** C70. Four outputs of a Mersenne Twister give its 32-bit seed. *)
Theorem C70_mt_outputs_give_the_seed : forall m m' junk junk' seed seed',
  length junk = 624%nat -> length junk' = 624%nat -> seed < 2^32 -> seed' < 2^32 ->
  (forall k, In k [395; 396; 622; 623]%nat ->
     nth_error (mt_outputs_of m (mt_new junk seed) 624) k =
     nth_error (mt_outputs_of m' (mt_new junk' seed') 624) k) -> seed = seed'.
Proof. exact mt_seed_recovered. Qed.
Print Assumptions C70_mt_outputs_give_the_seed.
(** Eight among the first seventy outputs of an SFMT give its 32-bit seed. *)
Theorem C70_sfmt_outputs_give_the_seed : forall m m' junk junk' seed seed',
  length junk = 624%nat -> length junk' = 624%nat -> seed < 2^32 -> seed' < 2^32 ->
  (forall k, In k [0; 1; 64; 65; 66; 67; 68; 69]%nat ->
     nth_error (sfmt_outputs_of m (sfmt_new junk seed) 70) k =
     nth_error (sfmt_outputs_of m' (sfmt_new junk' seed') 70) k) -> seed = seed'.
Proof. exact sfmt_seed_recovered. Qed.
Print Assumptions C70_sfmt_outputs_give_the_seed.
(** Four consecutive outputs of a Xorshift128 give its 128-bit state, with or without
    numba. *)
Theorem C70_xorshift_outputs_give_the_state : forall m m' st st', xs_words st -> xs_words st' ->
  results (xs_next m) 4 st = results (xs_next m') 4 st' -> st = st'.
Proof. exact xs_state_recovered. Qed.
Print Assumptions C70_xorshift_outputs_give_the_state.
(** The first output of a xoroshiro128+ gives its first seed, if the second is known. *)
Theorem C70_xoroshiro_output_gives_the_seed : forall junk junk' s s' seed1,
  length junk = 2%nat -> length junk' = 2%nat -> s < 2^64 -> s' < 2^64 ->
  snd (xo_next (xo_new junk s seed1)) = snd (xo_next (xo_new junk' s' seed1)) -> s = s'.
Proof. exact xo_seed_recovered. Qed.
Print Assumptions C70_xoroshiro_output_gives_the_seed.
Example C70_case :
  xs_words [1; 2; 3; 4] /\ results (xs_next Numba) 4 [1; 2; 3; 4] = [2061; 6175; 4; 8224] /\
  snd (xo_next (xo_new [0; 0] 0x1234567890ABCDEF xo_seed1_default)) = 10725049755102689354.
Proof. split; [exists 1, 2, 3, 4; now repeat split|]. split; now vm_compute. Qed.
