(** PIDs made of two rands in a row. *)
From Coq Require Import NArith List.
From Verif Require Import Spec.Gen3Spec.
Open Scope N_scope.

(** Some seed gives this PID: its first rand is the low half, its second rand the high half. *)
Definition occurs (pid : N) : Prop := exists s, s < 2^32 /\ rand_at s 1 + 65536 * rand_at s 2 = pid.
