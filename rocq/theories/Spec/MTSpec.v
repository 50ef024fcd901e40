(** The MT19937 sequence (Matsumoto and Nishimura), independently of any block
    buffer: an infinite sequence of 32-bit words. *)
From Coq Require Import NArith.
Open Scope N_scope.

(** The twist of two neighbouring words: top bit of [u], low 31 bits of [v],
    times the companion matrix. *)
Definition mt19937_twist (u v : N) : N :=
  let y := (u / 2^31) mod 2 * 2^31 + v mod 2^31 in
  if N.odd y then N.lxor (y / 2) 0x9908B0DF else y / 2.

(** [x] is the word sequence of MT19937 for [seed]. *)
Record MT19937 (seed : N) (x : nat -> N) : Prop := {
  mt19937_first : x 0%nat = seed mod 2^32;
  mt19937_init : forall i, (i < 623)%nat ->
    x (S i) = (1812433253 * N.lxor (x i) (x i / 2^30) + N.of_nat (S i)) mod 2^32;
  mt19937_rec : forall i,
    x (i + 624)%nat = N.lxor (x (i + 397)%nat) (mt19937_twist (x i) (x (i + 1)%nat))
}.

(** Tempering: y ^= y>>11; y ^= (y<<7)&b; y ^= (y<<15)&c; y ^= y>>18 on 32-bit words. *)
Definition mt19937_temper (y : N) : N :=
  let y := N.lxor y (y / 2^11) in
  let y := N.lxor y (N.land ((y * 2^7) mod 2^32) 2636928640) in
  let y := N.lxor y (N.land ((y * 2^15) mod 2^32) 4022730752) in
  N.lxor y (y / 2^18).

(** Output number k (from 0). *)
Definition mt19937_output (x : nat -> N) (k : nat) : N := mt19937_temper (x (624 + k)%nat).
