(** A state at a later advance. *)
From Coq Require Import NArith List.
From Verif Require Import Model.Gen3State.
Open Scope N_scope.

(** The same state, [k] advances later. *)
Definition later (k : N) (st : gstate) : gstate :=
  {| g_advance := g_advance st + k; g_pid := g_pid st; g_species := g_species st;
     g_form := g_form st; g_stats := g_stats st; g_ability_index := g_ability_index st;
     g_ivs := g_ivs st; g_ability := g_ability st; g_characteristic := g_characteristic st;
     g_gender := g_gender st; g_hidden_power := g_hidden_power st;
     g_hidden_power_strength := g_hidden_power_strength st;
     g_level := g_level st; g_nature := g_nature st; g_shiny := g_shiny st |}.
