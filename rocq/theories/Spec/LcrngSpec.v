(** What a linear congruential generator is, independently of the code. *)
From Coq Require Import NArith.
Open Scope N_scope.

(** One step of x -> a*x + c modulo 2^w. *)
Definition lcg (w a c : N) (x : N) : N := (a * x + c) mod 2^w.

(** [n] steps. *)
Definition lcg_steps (w a c : N) (n : N) (x : N) : N := N.iter n (lcg w a c) x.

(** The orbit of every state is the whole of [0, 2^w), with period exactly 2^w. *)
Definition full_period (w : N) (f : N -> N) : Prop :=
  (forall x, x < 2^w -> N.iter (2^w) f x = x) /\
  (forall x y, x < 2^w -> y < 2^w ->
     exists n, n < 2^w /\ N.iter n f x = y /\
               forall n', n' < 2^w -> N.iter n' f x = y -> n' = n).
