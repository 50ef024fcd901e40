(** Seeds that differ in their highest bit. *)
From Coq Require Import NArith List.
From Verif Require Import Spec.Gen3Spec.
Open Scope N_scope.

(** A value of [w] bits with its highest bit flipped. *)
Definition flip_top (w x : N) : N := N.lxor x (2 ^ (w - 1)).
(** The PID made of the first two rands from seed [s]. *)
Definition first_pid (s : N) : N := rand_at s 1 + 65536 * rand_at s 2.
