(** C68, further: two outputs of each published generator. *)
From Coq Require Import NArith List.
From Verif Require Import Base.Word Model.Lcrng32 Model.Lcrng64 Model.LcrngClasses Spec.RecoverSpec
  Proofs.LcrngTwo.
Import ListNotations.
Open Scope N_scope.

(** Two outputs leave at most three seeds of the Generation 3 and 4 generator, forward or
    reversed, and at most two seeds of the others. *)
Theorem C68_two_outputs_32 : forall minor p add mult l outputs,
  In p published32 -> consts_of32 minor p = Ok (add, mult) -> NoDup l ->
  (forall s, In s l -> s < 2^32 /\ results (lcrng32_next_u16 add mult) 2 s = outputs) ->
  (length l <= if (p32_mult p =? 0x41C64E6D)%N then 3 else 2)%nat.
Proof. exact two_outputs_published32. Qed.
Print Assumptions C68_two_outputs_32.
Theorem C68_two_outputs_64 : forall minor p add mult l outputs,
  In p published64 -> consts_of64 minor p = Ok (add, mult) -> NoDup l ->
  (forall s, In s l -> s < 2^64 /\ results (lcrng64_next_u32 add mult) 2 s = outputs) ->
  (length l <= 2)%nat.
Proof. exact two_outputs_published64. Qed.
Print Assumptions C68_two_outputs_64.
(** All of these numbers are reached. *)
Theorem C68_two_outputs_sharp :
  (let run := results (lcrng32_next_u16 0xA3561A1 0xEEB9EB65) 2 in
   run 0x4C59A17B = run 0x247F2506 /\ run 0x4C59A17B = run 0xFCA4A891) /\
  (let run := results (lcrng32_next_u16 1 0x6C078965) 2 in run 0xF2E77207 = run 0x532C6F58) /\
  (let run := results (lcrng32_next_u16 0x69C77F93 0x9638806D) 2 in run 0x738DF9A8 = run 0x68D9DF55) /\
  (let run := results (lcrng32_next_u16 0x269EC3 0x343FD) 2 in run 0x3E9A12E = run 0x272F44A5) /\
  (let run := results (lcrng32_next_u16 0xA170F641 0xB9B33155) 2 in run 0x3220E918 = run 0x39D91F8B) /\
  (let run := results (lcrng64_next_u32 0x269EC3 0x5D588B656C078965) 2 in
   run 0xE7CDADED016E4B1F = run 0x75EB74D962B150CA) /\
  (let run := results (lcrng64_next_u32 0x9B1AE6E9A384E6F9 0xDEDCEDAE9638806D) 2 in
   run 0xDADF58460FFFE897 = run 0xDF95E1FD979A6B76).
Proof. vm_compute. intuition. Qed.
Print Assumptions C68_two_outputs_sharp.
(** Two seeds of XDRNG that share two outputs. *)
Example C68_two_case :
  In XDRNG published32 /\ consts_of32 9 XDRNG = Ok (0x269EC3, 0x343FD) /\
  map (results (lcrng32_next_u16 0x269EC3 0x343FD) 2) [0x3E9A12E; 0x272F44A5] =
    [[0xE6C3; 0x3220]; [0xE6C3; 0x3220]].
Proof. split; [cbn; auto 10|]. split; now vm_compute. Qed.
