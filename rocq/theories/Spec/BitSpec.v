(** Periods of sequences. *)
From Coq Require Import NArith.
Open Scope N_scope.

(** The n-th result (from 0) of repeated calls of a method. *)
Definition nth_result {S R} (call : S -> S * R) (s : S) (n : N) : R :=
  snd (call (N.iter n (fun s => fst (call s)) s)).

(** The sequence repeats every [p] terms, and whenever it repeats every [q] terms, q is a
    multiple of [p]. *)
Definition repeats_every {R} (f : N -> R) (p : N) : Prop := forall n, f (n + p) = f n.
Definition least_period {R} (f : N -> R) (p : N) : Prop :=
  0 < p /\ repeats_every f p /\ forall q, repeats_every f q -> exists k, q = k * p.
