(** Marsaglia's xorshift128 with shifts (11, 8, 19), xoroshiro128+ with (24, 16, 37),
    and splitmix64, written with arithmetic on numbers. *)
From Coq Require Import NArith ZArith List.
From Verif Require Import Base.Word.
Import ListNotations.
Open Scope N_scope.

(** ** xorshift128 *)
(** The array holding four words, and those that hold 32-bit words. *)
Definition xs_words (st : list N) : Prop :=
  exists x y z w, st = [x; y; z; w] /\ x < 2^32 /\ y < 2^32 /\ z < 2^32 /\ w < 2^32.
(** The next word of the sequence x, y, z, w. *)
Definition xs_word (x w : N) : N :=
  let t := N.lxor x (x * 2^11 mod 2^32) in
  N.lxor (N.lxor t (t / 2^8)) (N.lxor w (w / 2^19)).
Definition xs_zero : list N := [0; 0; 0; 0].

(** The sequence of words that starts with the four words of a seed; output number i
    (from 0) of a generator is word i + 4. *)
Fixpoint xs_seq (s0 s1 s2 s3 : N) (n : nat) : N :=
  match n with
  | O => s0
  | S k => xs_seq s1 s2 s3 (xs_word s0 s3) k
  end.

(** A number below 2^32 read as a signed 32-bit integer. *)
Definition signed32 (v : N) : Z := if v <? 2^31 then Z.of_N v else (Z.of_N v - 2^32)%Z.

(** ** xoroshiro128+ *)
Definition xo_words (st : list N) : Prop :=
  exists a b, st = [a; b] /\ a < 2^64 /\ b < 2^64.
Definition xo_zero : list N := [0; 0].
(** Rotation of a 64-bit number. *)
Definition rot64 (v k : N) : N := (v * 2^k) mod 2^64 + v / 2^(64 - k).
(** State transition of xoroshiro128+ (a, b, c) = (24, 16, 37). *)
Definition xoroshiro_next (st : list N) : list N :=
  match st with
  | [a; b] => let x := N.lxor a b in
              [N.lxor (N.lxor (rot64 a 24) x) (x * 2^16 mod 2^64); rot64 x 37]
  | _ => st
  end.
Definition xoroshiro_output (st : list N) : N :=
  match st with [a; b] => (a + b) mod 2^64 | _ => 0 end.

(** Draw number i of rejection sampling below [maximum]: that many low bits of output
    i as are needed to write maximum - 1. *)
Definition xoroshiro_draw (maximum : N) (st : list N) (i : N) : N :=
  xoroshiro_output (N.iter i xoroshiro_next st) mod 2^(N.log2_up maximum).

(** ** splitmix64: output number n (from 1) of the generator with the given seed. *)
Definition splitmix64 (seed n : N) : N :=
  let z := (seed + n * 0x9e3779b97f4a7c15) mod 2^64 in
  let z := (N.lxor z (z / 2^30) * 0xbf58476d1ce4e5b9) mod 2^64 in
  let z := (N.lxor z (z / 2^27) * 0x94d049bb133111eb) mod 2^64 in
  N.lxor z (z / 2^31).
