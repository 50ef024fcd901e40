(** The FNV recurrences modulo 2^64, with the offset basis that the games use. *)
From Coq Require Import NArith List.
Import ListNotations.
Open Scope N_scope.

Definition fnv_prime : N := 1099511628211.
Definition fnv_basis : N := 14695981039346656837.
(** [h] hashes strings as FNV-1: the empty string to the basis, and one more character
    multiplies, then xors. *)
Definition is_fnv1 (h : list N -> N) : Prop :=
  h [] = fnv_basis /\
  forall s c, c < 2^64 -> h (s ++ [c]) = N.lxor ((h s * fnv_prime) mod 2^64) c.
(** FNV-1a: xors, then multiplies. *)
Definition is_fnv1a (h : list N -> N) : Prop :=
  h [] = fnv_basis /\
  forall s c, c < 2^64 -> h (s ++ [c]) = (N.lxor (h s) c * fnv_prime) mod 2^64.
