(** Twister objects in any state at all, reached from a seed or not. *)
From Coq Require Import NArith List.
From Verif Require Import Base.Word Model.MT Model.SFMT.
Open Scope N_scope.

(** 624 words and a place to read the next one. *)
Definition mt_object (self : mt) : Prop :=
  length (mt_state self) = 624%nat /\ mt_index self <= 624.
(** 624 32-bit words and an even place to read the next pair. *)
Definition sfmt_object (self : sfmt) : Prop :=
  length (sfmt_state self) = 624%nat /\ Forall (fun w => w < 2^32) (sfmt_state self) /\
  sfmt_index self <= 624 /\ N.even (sfmt_index self) = true.
(** The next output is the high half of a 128-bit word. *)
Definition sfmt_in_middle (self : sfmt) : bool := sfmt_index self mod 4 =? 2.
