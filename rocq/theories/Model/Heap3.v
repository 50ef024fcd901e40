(** numba_pokemon_prngs/gen3/state.py and gen3/wild_generator_3.py with their arrays as
    objects: a state holds references to its [ivs] and [stats] arrays, so two states (or
    a state and the caller) could share one. *)
From Coq Require Import NArith List Bool.
From Verif Require Import Base.Word Model.Lcrng32 Model.LcrngClasses Model.Gen3State Model.Gen3Area Model.Gen3Wild Model.Gen3Update Model.SharedList.
Import ListNotations.
Open Scope N_scope.

(** The arrays made so far; a reference is a position. Arrays are never freed here. *)
Definition heap := list (list N).
Definition load (h : heap) (r : nat) : list N := nth r h [].
(** [np.empty] (state.py:95,101, wild_generator_3.py:125) and [array[i] = v]. *)
Definition alloc (h : heap) (content : list N) : heap * nat := (h ++ [content], length h).
Definition store (h : heap) (r : nat) (i : nat) (v : N) : heap := put h r (aset (load h r) i v).

(** gen3/state.py:20-33,77: a GeneratorState with references for its two arrays; the two
    array fields of [so_rest] are not used. *)
Record sobj := mk_so { so_ivs : nat; so_stats : nat; so_rest : gstate }.
(** What a reader of the object sees (state.py:20-33). *)
Definition view (h : heap) (o : sobj) : gstate :=
  let st := so_rest o in
  {| g_advance := g_advance st; g_pid := g_pid st; g_species := g_species st; g_form := g_form st;
     g_stats := load h (so_stats o); g_ability_index := g_ability_index st;
     g_ivs := load h (so_ivs o); g_ability := g_ability st; g_characteristic := g_characteristic st;
     g_gender := g_gender st; g_hidden_power := g_hidden_power st;
     g_hidden_power_strength := g_hidden_power_strength st; g_level := g_level st;
     g_nature := g_nature st; g_shiny := g_shiny st |}.

(** gen3/state.py:53-66: one iteration; both arrays are read through their references,
    and one entry of self.stats is written. *)
Definition update_body_h (ivs stats : nat) (base_stats : list N) (level nature ec_index : N)
    (i : nat) (s : heap * upd) : res (heap * upd) :=
  let '(h, u) := s in
  rbind (update_body (load h ivs) base_stats level nature ec_index i
           (mkUpd (u_hpv u) (u_hps u) (load h stats) (u_char u) (u_max_iv u)))
    (fun u => Ok (put h stats (u_stats u), u)).

(** gen3/state.py:35-70, [update_stats]. *)
Definition update_stats_h (m : mode) (h : heap) (o : sobj) (info : personal3) : res (heap * sobj) :=
  let st := so_rest o in
  let nature := g_pid st mod 25 in
  let ec_index := g_pid st mod 6 in
  let base_stats := [pi_hp info; pi_attack info; pi_defense info;
                     pi_special_attack info; pi_special_defense info; pi_speed info] in
  rbind (for_range_r 6 0 (update_body_h (so_ivs o) (so_stats o) base_stats (g_level st) nature ec_index)
                     (h, mkUpd 0 0 (load h (so_stats o)) ec_index 0))
    (fun '(h, u) =>
       Ok (h, mk_so (so_ivs o) (so_stats o)
          {| g_advance := g_advance st; g_pid := g_pid st; g_species := g_species st;
             g_form := g_form st; g_stats := []; g_ability_index := g_ability_index st;
             g_ivs := []; g_ability := g_ability st;
             g_characteristic := w8 (u_char u * 5 + u_max_iv u mod 5);
             g_gender := get_gender (g_pid st) (pi_gender_ratio info);
             g_hidden_power := w8 (u_hpv u * 15 / 63);
             g_hidden_power_strength := strength_attr m (u_hps u);
             g_level := g_level st; g_nature := nature; g_shiny := g_shiny st |})).

(** gen3/state.py:79-103, [GeneratorState.__init__] given a reference to the array of IVs
    ([self.ivs[:] = ivs] copies it). [junk r] is what [np.empty] leaves in array number r;
    [rest] are the attributes not yet set. *)
Definition gstate_new_h (m : mode) (junk : nat -> list N) (rest : gstate) (h : heap)
    (advance pid species form : N) (ivs : nat) (ability level shiny : N) (info : personal3) : res (heap * sobj) :=
  let '(h, self_ivs) := alloc h (junk (length h)) in
  let h := put h self_ivs (load h ivs) in
  let '(h, self_stats) := alloc h (junk (length h)) in
  update_stats_h m h
    (mk_so self_ivs self_stats (gstate_init [] rest advance pid species form [] ability level shiny info)) info.

(** wild_generator_3.py:118-143: from the accepted PID to the state, with the local array
    of lines 125-131. *)
Definition finish_state_h (g : wildgen) (junk : nat -> list N) (rest : gstate) (info : personal3)
    (h : heap) (advance species form level go pid : N) : res (heap * sobj) :=
  let go := if w_method g =? Method_METHOD_2 then poke_next go else go in
  let '(go, iv1) := poke_next_u16 go in
  let go := if w_method g =? Method_METHOD_4 then poke_next go else go in
  let '(go, iv2) := poke_next_u16 go in
  let '(h, ivs) := alloc h (junk (length h)) in
  let h := store h ivs 0 (N.land iv1 0x1F) in
  let h := store h ivs 1 (N.land (N.shiftr iv1 5) 0x1F) in
  let h := store h ivs 2 (N.land (N.shiftr iv1 10) 0x1F) in
  let h := store h ivs 3 (N.land (N.shiftr iv2 5) 0x1F) in
  let h := store h ivs 4 (N.land (N.shiftr iv2 10) 0x1F) in
  let h := store h ivs 5 (N.land iv2 0x1F) in
  gstate_new_h Numba junk rest h advance pid species form ivs (N.land pid 1) level
               (get_shiny (w32 pid) (w_tsv g)) info.

(** wild_generator_3.py:80-143, as [wild_step] in Model/Gen3Wild.v. *)
Definition wild_step_h (fuel : nat) (junk : nat -> list N) (rest : gstate) (g : wildgen) (area : area3)
    (modified_slots : list slot3) (rate : N) (rse_safari rse cute_charm : bool)
    (rng advance : N) (h : heap) : res (bool * option (heap * sobj)) :=
  let go := lcrng32_re_init 0 rng in
  let rock := rse && (w_encounter g =? Encounter_ROCK_SMASH) in
  let checked := if rock
                 then sbind (rand_2880 go) (fun go r => (go, Ok (rate <=? r)))
                 else (go, Ok false) in
  snd (sbind checked (fun go skip =>
    if skip then (go, Ok (cute_charm, None)) else
    sbind (calculate_hslot_lead area go (w_encounter g) (w_lead g) modified_slots)
      (fun go slot =>
    let species := N.land (s_species slot) 0x7FF in
    let form := N.shiftr (s_species slot) 11 in
    sbind (calculate_level slot go (w_lead g =? Lead_PRESSURE)) (fun go level =>
    match nth_error (w_table g) (N.to_nat species) with
    | None => (go, Raise IndexError)
    | Some info =>
    sbind (roll_cute_charm g info cute_charm go) (fun go cute_charm =>
    let go := if rse_safari then poke_next go else go in
    sbind (roll_nature g go) (fun go search_nature =>
    match pid_search fuel g info search_nature species form cute_charm go with
    | Raise e => (go, Raise e)
    | Ok (go, pid) =>
        (go, rmap (fun st => (cute_charm, Some st))
                  (finish_state_h g junk rest info h advance species form level go pid))
    end))
    end)))).

(** wild_generator_3.py:79-147: the loop; the list of states grows with each. *)
Fixpoint wild_loop_h (fuel : nat) (junk : nat -> list N) (rest : gstate) (g : wildgen) (area : area3)
    (modified_slots : list slot3) (rate : N) (rse_safari rse : bool)
    (n : nat) (advance : N) (rng : N) (cute_charm : bool) (h : heap) (states : list sobj) : res (heap * list sobj) :=
  match n with
  | O => Ok (h, states)
  | S n' =>
      rbind (wild_step_h fuel junk rest g area modified_slots rate rse_safari rse cute_charm rng advance h)
        (fun '(cute_charm, st) =>
           match st with
           | None => wild_loop_h fuel junk rest g area modified_slots rate rse_safari rse
                                 n' (advance + 1) rng cute_charm h states
           | Some (h, st) => wild_loop_h fuel junk rest g area modified_slots rate rse_safari rse
                                 n' (advance + 1) (poke_next rng) cute_charm h (states ++ [st])
           end)
  end.

(** wild_generator_3.py:55-149, [generate], in a program that has made the arrays [h]. *)
Definition wild_generate_h (fuel : nat) (junk : nat -> list N) (rest : gstate) (g : wildgen)
    (seed delay initial_advances max_advances : N) (area : area3) (h : heap) : res (heap * list sobj) :=
  rbind (get_modified_slots area (w_encounter g) (w_lead g) (w_game g) (w_table g))
    (fun modified_slots =>
  let rate := get_encounter_rate area (w_encounter g) * 16 in
  let rse_safari := is_rse_safari_zone area (w_game g) in
  let rse := negb (N.land (w_game g)
                     (N.lor (N.lor Game_RUBY Game_SAPPHIRE) Game_EMERALD) =? 0) in
  let rng := lcrng32_new seed in
  match poke_jump rng (initial_advances + delay) with
  | (_, Raise e) => Raise e
  | (rng, Ok _) =>
      wild_loop_h fuel junk rest g area modified_slots rate rse_safari rse
                (N.to_nat max_advances) initial_advances rng false h []
  end).

(** What the caller can do with the states afterwards: assign an entry of an array, an
    attribute (state.py:20-33; [f] changes the attributes that are not arrays), or call
    [update_stats] (state.py:35-70). Nothing happens if there is no such state. *)
Inductive act := ASetIv (k i : nat) (v : N) | ASetStat (k i : nat) (v : N)
  | AAttr (k : nat) (f : gstate -> gstate) | AUpdate (k : nat) (info : personal3).
Definition act_h (m : mode) (s : heap * list sobj) (a : act) : res (heap * list sobj) :=
  let '(h, objs) := s in
  match a with
  | ASetIv k i v => Ok (match nth_error objs k with Some o => store h (so_ivs o) i v | None => h end, objs)
  | ASetStat k i v => Ok (match nth_error objs k with Some o => store h (so_stats o) i v | None => h end, objs)
  | AAttr k f => Ok (h, match nth_error objs k with
                        | Some o => put objs k (mk_so (so_ivs o) (so_stats o) (f (so_rest o)))
                        | None => objs end)
  | AUpdate k info =>
      match nth_error objs k with
      | Some o => rbind (update_stats_h m h o info) (fun '(h, o) => Ok (h, put objs k o))
      | None => Ok s
      end
  end.
Fixpoint acts_h (m : mode) (s : heap * list sobj) (l : list act) : res (heap * list sobj) :=
  match l with
  | [] => Ok s
  | a :: t => rbind (act_h m s a) (fun s => acts_h m s t)
  end.
