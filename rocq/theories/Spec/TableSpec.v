(** Slot tables that count down: slot i has the rolls above bound i. *)
From Coq Require Import NArith ZArith List.
Import ListNotations.
Open Scope N_scope.

(** The first slot whose bound is below the roll. *)
Fixpoint slot_of_roll_down (bounds : list Z) (r : Z) : N :=
  match bounds with
  | [] => 0
  | c :: rest => if (c <? r)%Z then 0 else 1 + slot_of_roll_down rest r
  end.
(** Strictly decreasing, starting below [hi], ending at -1. *)
Fixpoint decreasing_to_minus_1 (hi : Z) (l : list Z) : Prop :=
  match l with
  | [] => False
  | [c] => (c < hi)%Z /\ c = (-1)%Z
  | c :: rest => (c < hi)%Z /\ decreasing_to_minus_1 c rest
  end.
