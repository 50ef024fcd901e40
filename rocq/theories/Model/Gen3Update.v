(** numba_pokemon_prngs/gen3/state.py: [update_stats] as a method that can be called
    again, after attributes of the state have been changed. *)
From Coq Require Import NArith List.
From Verif Require Import Base.Word Model.Gen3State.
Import ListNotations.
Open Scope N_scope.

(** gen3/state.py:35-70, [State.update_stats]. The attributes hold values of the types in
    lines 20-33 (as numba and the constructor make them). The six entries of self.stats
    are overwritten one by one, so what they held before is the start of the loop. *)
Definition update_stats (m : mode) (st : gstate) (info : personal3) : res gstate :=
  let nature := g_pid st mod 25 in
  let ec_index := g_pid st mod 6 in
  let base_stats := [pi_hp info; pi_attack info; pi_defense info;
                     pi_special_attack info; pi_special_defense info; pi_speed info] in
  rbind (for_range_r 6 0 (update_body (g_ivs st) base_stats (g_level st) nature ec_index)
                     (mkUpd 0 0 (g_stats st) ec_index 0))
    (fun u =>
       Ok {| g_advance := g_advance st; g_pid := g_pid st; g_species := g_species st;
             g_form := g_form st; g_stats := u_stats u;
             g_ability_index := g_ability_index st;
             g_ivs := g_ivs st; g_ability := g_ability st;
             g_characteristic := w8 (u_char u * 5 + u_max_iv u mod 5);
             g_gender := get_gender (g_pid st) (pi_gender_ratio info);
             g_hidden_power := w8 (u_hpv u * 15 / 63);
             g_hidden_power_strength := strength_attr m (u_hps u);
             g_level := g_level st; g_nature := nature; g_shiny := g_shiny st |}).

(** gen3/state.py:91-102, [GeneratorState.__init__] up to the call of [update_stats]. The
    attributes that it has not set yet are whatever [rest] says. *)
Definition gstate_init (junk : list N) (rest : gstate)
    (advance pid species form : N) (ivs : list N) (ability level shiny : N) (info : personal3) : gstate :=
  {| g_advance := w32 advance; g_pid := w32 pid; g_species := w16 species; g_form := w8 form;
     g_stats := junk;
     g_ability_index := if ability =? 0 then pi_ability_1 info else pi_ability_2 info;
     g_ivs := ivs; g_ability := w8 ability; g_characteristic := g_characteristic rest;
     g_gender := g_gender rest; g_hidden_power := g_hidden_power rest;
     g_hidden_power_strength := g_hidden_power_strength rest; g_level := w8 level;
     g_nature := g_nature rest; g_shiny := w8 shiny |}.
