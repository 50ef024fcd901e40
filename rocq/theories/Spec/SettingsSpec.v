(** What is left of a generated state when the part that a setting decides is removed. *)
From Coq Require Import NArith List.
From Verif Require Import Model.Gen3State.
Import ListNotations.
Open Scope N_scope.

(** Everything but the shininess. *)
Definition without_shiny (st : gstate) :=
  (g_advance st, g_pid st, g_species st, g_form st, g_stats st, g_ability_index st, g_ivs st, g_ability st,
   g_characteristic st, g_gender st, g_hidden_power st, g_hidden_power_strength st, g_level st, g_nature st).
(** Everything but the IVs and what is computed from them: stats, characteristic, Hidden Power. *)
Definition without_ivs (st : gstate) :=
  (g_advance st, g_pid st, g_species st, g_form st, g_ability_index st, g_ability st, g_gender st, g_level st,
   g_nature st, g_shiny st).
(** HP, Attack and Defense; Speed, Special Attack and Special Defense: the two draws. *)
Definition first_draw (st : gstate) : list N := [nth 0 (g_ivs st) 0; nth 1 (g_ivs st) 0; nth 2 (g_ivs st) 0].
Definition second_draw (st : gstate) : list N := [nth 5 (g_ivs st) 0; nth 3 (g_ivs st) 0; nth 4 (g_ivs st) 0].
