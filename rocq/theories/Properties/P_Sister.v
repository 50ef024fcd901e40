(** Property C112: seeds that differ in their highest bit. *)
From Coq Require Import NArith List.
From Verif Require Import Base.Word Model.Lcrng32 Model.Lcrng64 Model.LcrngClasses Model.Gen3State Model.Gen3Area Model.Gen3Wild
  Spec.LcrngSpec Spec.Gen3Spec Spec.Gen3WildSpec Spec.RecoverSpec Spec.SisterSpec Proofs.SisterProofs Properties.P_Gen3.
Import ListNotations.
Open Scope N_scope.

(** Their outputs differ in the highest bit and nowhere else, for every published generator. *)
Theorem C112_outputs_32 : forall minor p add mult s, In p published32 -> consts_of32 minor p = Ok (add, mult) -> s < 2^32 ->
  forall n, results (lcrng32_next_u16 add mult) n (N.lxor s (2^31)) =
            map (fun r => N.lxor r (2^15)) (results (lcrng32_next_u16 add mult) n s).
Proof. exact published_flip32. Qed.
Print Assumptions C112_outputs_32.
Theorem C112_outputs_64 : forall minor p add mult s, In p published64 -> consts_of64 minor p = Ok (add, mult) -> s < 2^64 ->
  forall n, results (lcrng64_next_u32 add mult) n (N.lxor s (2^63)) =
            map (fun r => N.lxor r (2^31)) (results (lcrng64_next_u32 add mult) n s).
Proof. exact published_flip64. Qed.
Print Assumptions C112_outputs_64.
(** They stay sisters when both are advanced. *)
Theorem C112_advance : forall minor p add mult s n, In p published32 -> consts_of32 minor p = Ok (add, mult) -> s < 2^32 ->
  lcrng32_advance add mult (N.lxor s (2^31)) n = N.lxor (lcrng32_advance add mult s n) (2^31).
Proof. exact advance_flip32. Qed.
Print Assumptions C112_advance.
(** A rand modulo a power of two up to 2^15 does not tell them apart (so both synchronize or neither does). *)
Theorem C112_modulo_rands : forall m minor p add mult s maximum,
  In p published32 -> consts_of32 minor p = Ok (add, mult) -> s < 2^32 -> N.divide maximum 32768 ->
  snd (lcrng32_next_rand m D32_MODULO add mult (N.lxor s (2^31)) maximum) = snd (lcrng32_next_rand m D32_MODULO add mult s maximum).
Proof. exact rand_mod_flip. Qed.
Print Assumptions C112_modulo_rands.
(** The six IVs agree, whichever two rands they are made of. *)
Theorem C112_ivs : forall s j k, s < 2^32 ->
  ivs_from (rand_at (N.lxor s (2^31)) j) (rand_at (N.lxor s (2^31)) k) = ivs_from (rand_at s j) (rand_at s k).
Proof. exact ivs_flip. Qed.
Print Assumptions C112_ivs.
(** The PIDs differ in bits 15 and 31: shininess for every trainer, gender for every ratio, Unown letter and ability agree, the
    nature never does. *)
Theorem C112_pids : forall s, s < 2^32 ->
  let p := first_pid s in let p' := first_pid (N.lxor s (2^31)) in
  p' = N.lxor p 0x80008000 /\
  (forall tsv, get_shiny p' tsv = get_shiny p tsv) /\ (forall ratio, get_gender p' ratio = get_gender p ratio) /\
  (forall form, unown_check p' form = unown_check p form) /\ p' mod 2 = p mod 2 /\ p' mod 25 <> p mod 25.
Proof. exact traits_flip. Qed.
Print Assumptions C112_pids.
(** So every generated state has a sister: a PID of another nature with the same six IVs, which the sister of its seed gives. *)
Theorem C112_states : forall fuel junk g seed delay initial max area l,
  length junk = 6%nat -> setting_ok g area -> seed < 2^32 -> initial + delay < 2^32 -> initial + max <= 2^32 ->
  wild_generate fuel junk g seed delay initial max area = Ok l -> forall st, In st l ->
  let j := if w_method g =? Method_METHOD_2 then 4 else 3 in
  let k := j + (if w_method g =? Method_METHOD_4 then 2 else 1) in
  exists s, s < 2^32 /\
    first_pid s = g_pid st /\ ivs_from (rand_at s j) (rand_at s k) = g_ivs st /\
    first_pid (N.lxor s (2^31)) = N.lxor (g_pid st) 0x80008000 /\
    ivs_from (rand_at (N.lxor s (2^31)) j) (rand_at (N.lxor s (2^31)) k) = g_ivs st /\
    N.lxor (g_pid st) 0x80008000 mod 25 <> g_nature st.
Proof. exact state_sisters. Qed.
Print Assumptions C112_states.

(** A reversed generator, the 64-bit one, and the seed of advance 12 of the run in P_Gen3.v. *)
Example C112_case :
  In XDRNGR published32 /\ consts_of32 9 XDRNGR = Ok (0xA170F641, 0xB9B33155) /\
  results (lcrng32_next_u16 0xA170F641 0xB9B33155) 3 0x12345678 = [57158; 6089; 19953] /\
  results (lcrng32_next_u16 0xA170F641 0xB9B33155) 3 0x92345678 = [24390; 38857; 52721] /\
  In BWRNG published64 /\ consts_of64 9 BWRNG = Ok (0x269EC3, 0x5D588B656C078965) /\
  snd (lcrng64_next_u32 0x269EC3 0x5D588B656C078965 0x9234567890ABCDEF) = N.lxor (snd (lcrng64_next_u32 0x269EC3 0x5D588B656C078965 0x1234567890ABCDEF)) 0x80000000 /\
  setting_ok (ex_gen 3 Encounter_GRASS Game_EMERALD) ex_area /\
  pid_and_ivs 3 3590529796 = (0xC4602D19, [19; 10; 2]) /\
  pid_and_ivs 3 (3590529796 - 2^31) = (0x4460AD19, [19; 10; 2]) /\
  map (fun p => p mod 25) [0xC4602D19; 0x4460AD19] = [12; 7] /\ map (fun p => get_shiny p (N.lxor 0xC460 0x2D19)) [0xC4602D19; 0x4460AD19] = [2; 2].
Proof.
  split; [cbn; auto 10|]. split; [now vm_compute|]. split; [now vm_compute|]. split; [now vm_compute|].
  split; [cbn; auto|]. split; [now vm_compute|]. split; [now vm_compute|]. split; [apply ex_setting|]. repeat split; now vm_compute.
Qed.
