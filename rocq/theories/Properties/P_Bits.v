(** C91: how long the bits of the linear congruential generators last. *)
From Coq Require Import NArith List.
From Verif Require Import Base.Word Spec.LcrngSpec Spec.BitSpec Model.Compat Model.Lcrng32 Model.Lcrng64
  Model.LcrngClasses Proofs.BitProofs.
Import ListNotations.
Open Scope N_scope.

(** next() changes the state and returns it. *)
Definition next_32 (add mult s : N) : N * N := let s := lcrng32_next add mult s in (s, s).
Definition next_64 (add mult s : N) : N * N := let s := lcrng64_next add mult s in (s, s).

(** C91. The lowest k + 1 bits of the results of next() have period 2^(k+1), and bit k is
    inverted after half of it. *)
Theorem C91_next_32 : forall minor p add mult s k, In p published32 -> consts_of32 minor p = Ok (add, mult) -> k < 32 ->
  let f := nth_result (next_32 add mult) s in
  least_period (fun n => f n mod 2^(k + 1)) (2^(k + 1)) /\
  forall n, N.testbit (f (n + 2^k)) k = negb (N.testbit (f n) k).
Proof. exact states32. Qed.
Print Assumptions C91_next_32.

Theorem C91_next_64 : forall minor p add mult s k, In p published64 -> consts_of64 minor p = Ok (add, mult) -> k < 64 ->
  let f := nth_result (next_64 add mult) s in
  least_period (fun n => f n mod 2^(k + 1)) (2^(k + 1)) /\
  forall n, N.testbit (f (n + 2^k)) k = negb (N.testbit (f n) k).
Proof. exact states64. Qed.
Print Assumptions C91_next_64.

(** The bits of next_u16 and next_u32 last longer; with k = 15 and k = 31 this is the period
    of the results. *)
Theorem C91_next_u16 : forall minor p add mult s k, In p published32 -> consts_of32 minor p = Ok (add, mult) -> k < 16 ->
  let f := nth_result (lcrng32_next_u16 add mult) s in
  least_period (fun n => f n mod 2^(k + 1)) (2^(k + 17)) /\
  forall n, N.testbit (f (n + 2^(k + 16))) k = negb (N.testbit (f n) k).
Proof. exact halves32. Qed.
Print Assumptions C91_next_u16.

Theorem C91_next_u32 : forall minor p add mult s k, In p published64 -> consts_of64 minor p = Ok (add, mult) -> k < 32 ->
  let f := nth_result (lcrng64_next_u32 add mult) s in
  least_period (fun n => f n mod 2^(k + 1)) (2^(k + 33)) /\
  forall n, N.testbit (f (n + 2^(k + 32))) k = negb (N.testbit (f n) k).
Proof. exact halves64. Qed.
Print Assumptions C91_next_u32.

(** Coin flips next_rand(2): by modulo every flip is the opposite of the one 2^16 before; by
    reciprocal division that takes 2^31 flips, and nothing shorter than 2^32 repeats. *)
Theorem C91_coin_flips : forall minor p add mult s m n, In p published32 -> consts_of32 minor p = Ok (add, mult) ->
  let f d := nth_result (fun s => lcrng32_next_rand m d add mult s 2) s in
  let flipped r := match r with Ok v => Ok (1 - v) | e => e end in
  f D32_MODULO (n + 2^16) = flipped (f D32_MODULO n) /\
  f D32_RECIPROCAL_DIVISION (n + 2^31) = flipped (f D32_RECIPROCAL_DIVISION n) /\
  forall q, repeats_every (f D32_RECIPROCAL_DIVISION) q -> exists k, q = k * 2^32.
Proof. exact coin32. Qed.
Print Assumptions C91_coin_flips.

(** The generator of Generation 3 from seed 0: lowest bits of the states; flips number 0 to 3. *)
Example C91_case : In XDRNGR published32 /\ In BWRNG published64 /\
  In PokeRNGMod published32 /\ consts_of32 9 PokeRNGMod = Ok (0x6073, 0x41C64E6D) /\
  map (fun n => nth_result (next_32 0x6073 0x41C64E6D) 0 n mod 8) [0; 1; 2; 3; 4; 5; 6; 7; 8]
  = [3; 2; 5; 4; 7; 6; 1; 0; 3] /\
  map (nth_result (fun s => lcrng32_next_rand Numba D32_MODULO 0x6073 0x41C64E6D s 2) 0) [0; 1; 2; 3]
  = [Ok 0; Ok 0; Ok 1; Ok 0].
Proof.
  split; [do 7 right; now left|]. split; [now left|]. split; [now left|].
  split; [now vm_compute|]. split; now vm_compute.
Qed.
