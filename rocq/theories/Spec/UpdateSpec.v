(** What an assignment to the attributes of a state can leave behind, and what it means
    that two states agree. *)
From Coq Require Import NArith List.
From Verif Require Import Model.Gen3State.
Open Scope N_scope.

(** The attributes fit their fields; nothing is said about how they hang together. *)
Definition fields_fit (st : gstate) : Prop :=
  g_advance st < 2^32 /\ g_pid st < 2^32 /\ g_species st < 2^16 /\ g_form st < 2^8 /\
  g_ability st < 2^8 /\ g_level st < 2^8 /\ g_shiny st < 2^8 /\
  length (g_stats st) = 6%nat.

(** Equal in what [update_stats] does not compute. *)
Definition same_inputs (a b : gstate) : Prop :=
  g_advance a = g_advance b /\ g_pid a = g_pid b /\ g_species a = g_species b /\ g_form a = g_form b /\
  g_ivs a = g_ivs b /\ g_ability a = g_ability b /\ g_ability_index a = g_ability_index b /\
  g_level a = g_level b /\ g_shiny a = g_shiny b.
(** Equal in all that it computes. *)
Definition same_derived (a b : gstate) : Prop :=
  g_stats a = g_stats b /\ g_gender a = g_gender b /\ g_nature a = g_nature b /\
  g_characteristic a = g_characteristic b /\ g_hidden_power a = g_hidden_power b /\
  g_hidden_power_strength a = g_hidden_power_strength b.
