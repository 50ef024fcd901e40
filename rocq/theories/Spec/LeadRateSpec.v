(** What a lead makes of an encounter, told from the state alone. *)
From Coq Require Import NArith List Bool.
From Verif Require Import Base.Word Model.Gen3State Model.Gen3Area Spec.Gen3WildSpec.
Import ListNotations.
Open Scope N_scope.

(** The species of a state has a type, by the personal table. *)
Definition state_has_type (table : list personal3) (t : N) (st : gstate) : bool :=
  match nth_error table (N.to_nat (g_species st)) with
  | Some i => (pi_type_1 i =? t) || (pi_type_2 i =? t)
  | None => false
  end.
(** A state has the highest level that some slot gives its species and form. *)
Definition at_highest_level (slots : list slot3) (st : gstate) : bool :=
  existsb (fun sl => (species_of sl =? g_species st) && (form_of sl =? g_form st) && (s_max_level sl =? g_level st)) slots.
