(** Comparing the base stats of two species. *)
From Coq Require Import NArith List.
From Verif Require Import Model.Gen3State.
Open Scope N_scope.

Definition base_le (a b : personal3) : Prop :=
  pi_hp a <= pi_hp b /\ pi_attack a <= pi_attack b /\ pi_defense a <= pi_defense b /\
  pi_special_attack a <= pi_special_attack b /\ pi_special_defense a <= pi_special_defense b /\ pi_speed a <= pi_speed b.
(** The code lowers stat [i] (1 to 5) for nature [n]: column n mod 5 is lowered, column
    n / 5 is raised, and a nature that does both leaves the stat as it is. *)
Definition lowered (n : N) (i : nat) : Prop :=
  n mod 5 + 1 = N.of_nat i /\ n / 5 + 1 <> N.of_nat i.
