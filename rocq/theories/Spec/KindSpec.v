(** Genders a species can have. *)
From Coq Require Import NArith.
From Verif Require Import Spec.Gen3Spec.
Open Scope N_scope.

(** Gender ratios of the games: always male, always female, no gender, or a bound of the low byte of the PID from 31 to 225. *)
Definition usual_ratio (ratio : N) : Prop := ratio = 0 \/ ratio = 254 \/ ratio = 255 \/ 31 <= ratio <= 225.
Definition has_gender (ratio : N) (x : gender) : Prop :=
  match x with
  | Male => ratio <> 254 /\ ratio <> 255
  | Female => ratio <> 0 /\ ratio <> 255
  | Genderless => ratio = 255
  end.
