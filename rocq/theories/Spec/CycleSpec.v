(** Single outputs of the block twisters. *)
From Coq Require Import NArith List.
From Verif Require Import Base.Word Model.MT Model.SFMT Spec.MTHistory Spec.SFMTHistory.

(** What the call of next() number [k], from 0, returns. *)
Definition mt_output_no (m : mode) (self : mt) (k : nat) : outcome := nth k (mt_outputs_of m self (S k)) ONone.
Definition sfmt_output_no (m : mode) (self : sfmt) (k : nat) : outcome := nth k (sfmt_outputs_of m self (S k)) ONone.
