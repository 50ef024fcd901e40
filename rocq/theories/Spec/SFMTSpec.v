(** SFMT19937 (Saito and Matsumoto) as a sequence of 128-bit words, independently of
    block buffers, 32-bit lanes arrays and SIMD instructions. *)
From Coq Require Import NArith List.
Import ListNotations.
Open Scope N_scope.

(** The four 32-bit lanes of a 128-bit word, least significant first. *)
Definition lane (l : N) (w : N) : N := w / 2^(32 * l) mod 2^32.
Definition of_lanes (a b c d : N) : N := a + b * 2^32 + c * 2^64 + d * 2^96.
Definition shr_lanes (k w : N) : N :=
  of_lanes (lane 0 w / 2^k) (lane 1 w / 2^k) (lane 2 w / 2^k) (lane 3 w / 2^k).
Definition shl_lanes (k w : N) : N :=
  of_lanes (lane 0 w * 2^k mod 2^32) (lane 1 w * 2^k mod 2^32)
           (lane 2 w * 2^k mod 2^32) (lane 3 w * 2^k mod 2^32).

(** Parameters of SFMT19937: N = 156, POS1 = 122, SL1 = 18, SL2 = 1 byte, SR1 = 11,
    SR2 = 1 byte, the masks and the parity vector. *)
Definition SFMT_MSK : N := of_lanes 0xdfffffef 0xddfecb7f 0xbffaffff 0xbffffff6.
Definition SFMT_PARITY : N := of_lanes 1 0 0 0x13c9e684.

Definition sfmt_recursion (a b c d : N) : N :=
  N.lxor a (N.lxor (a * 2^8 mod 2^128)
           (N.lxor (N.land (shr_lanes 11 b) SFMT_MSK)
           (N.lxor (c / 2^8) (shl_lanes 18 d)))).

(** Whether the number of one bits among the lowest [n] is odd. *)
Definition odd_ones (n : nat) (w : N) : bool :=
  fold_right xorb false (map (fun i => N.testbit w (N.of_nat i)) (seq 0 n)).

(** Period certification: the inner product with the parity vector must be 1; if not,
    the lowest bit of the state is flipped. *)
Definition certified (w : N) : N :=
  if odd_ones 128 (N.land w SFMT_PARITY) then w else N.lxor w 1.

(** Knuth's initialisation of the 624 32-bit words. *)
Record knuth_init (seed : N) (v : nat -> N) : Prop := {
  knuth_first : v 0%nat = seed mod 2^32;
  knuth_next : forall i, (i < 623)%nat ->
    v (S i) = (1812433253 * N.lxor (v i) (v i / 2^30) + N.of_nat (S i)) mod 2^32
}.
Definition word128 (v : nat -> N) (j : nat) : N :=
  of_lanes (v (4 * j)%nat) (v (4 * j + 1)%nat) (v (4 * j + 2)%nat) (v (4 * j + 3)%nat).

(** [W] is the 128-bit word sequence of SFMT19937 for [seed]. *)
Record SFMT19937 (seed : N) (W : nat -> N) : Prop := {
  sfmt19937_init : exists v, knuth_init seed v /\
    W 0%nat = certified (word128 v 0) /\
    forall j, (0 < j < 156)%nat -> W j = word128 v j;
  sfmt19937_rec : forall k,
    W (k + 156)%nat = sfmt_recursion (W k) (W (k + 122)%nat) (W (k + 154)%nat) (W (k + 155)%nat)
}.

(** 64-bit word number q of the sequence: the lower, then the upper half. *)
Definition half64 (W : nat -> N) (q : nat) : N :=
  if Nat.even q then W (Nat.div2 q) mod 2^64 else W (Nat.div2 q) / 2^64.
(** Output number k: the first generated word is W 156. *)
Definition sfmt19937_output (W : nat -> N) (k : nat) : N := half64 W (312 + k).
