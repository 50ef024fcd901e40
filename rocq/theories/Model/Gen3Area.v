(** Model of numba_pokemon_prngs/gen3/encounter_area_3.py. Without numba the
    [@optional_njit] functions of that file are not usable at all (see
    Model/Compilation.v), so they are modelled as compiled code: integer arithmetic on
    64 bits, unchecked array reads (the model raises [IndexError] where the compiled
    code would read outside an array). *)
From Coq Require Import NArith ZArith List Bool.
From Verif Require Import Base.Word Model.Lcrng32 Model.LcrngClasses Model.Gen3State.
Import ListNotations.
Open Scope N_scope.

(** data/encounter/encounter_area_3.py:8-14, Slot3. *)
Record slot3 := mkSlot3 { s_min_level : N; s_max_level : N; s_species : N }.

(** data/encounter/encounter_area_3.py:20-34, EncounterArea3. *)
Record area3 := mkArea3 {
  a_location : N;
  a_land_rate : N; a_land : list slot3;
  a_water_rate : N; a_water : list slot3;
  a_rock_rate : N; a_rock : list slot3;
  a_fish_rate : N; a_fish_old : list slot3; a_fish_good : list slot3;
  a_fish_super : list slot3 }.

(** enums/encounter.py:9-28, the members that generation 3 code names. *)
Definition Encounter_GRASS := 0.
Definition Encounter_ROCK_SMASH := 3.
Definition Encounter_SURFING := 4.
Definition Encounter_OLD_ROD := 6.
Definition Encounter_GOOD_ROD := 7.
Definition Encounter_SUPER_ROD := 8.

(** enums/game.py:9-38, the members that generation 3 code names. *)
Definition Game_RUBY := 1.
Definition Game_SAPPHIRE := 2.
Definition Game_EMERALD := 4.
Definition Game_FIRE_RED := 8.
Definition Game_LEAF_GREEN := 16.
Definition Game_DIAMOND := 512.
Definition Game_PEARL := 256.
Definition Game_PLATINUM := 512.
Definition Game_HEART_GOLD := 1024.
Definition Game_SOUL_SILVER := 2048.

(** enums/lead.py:9-58, the members that generation 3 code names. *)
Definition Lead_SYNCHRONIZE_QUIRKY := 24.
Definition Lead_CUTE_CHARM_F := 25.
Definition Lead_CUTE_CHARM_M := 26.
Definition Lead_MAGNET_PULL := 27.
Definition Lead_STATIC := 28.
Definition Lead_HARVEST := 29.
Definition Lead_FLASH_FIRE := 30.
Definition Lead_STORM_DRAIN := 31.
Definition Lead_PRESSURE := 32.
Definition Lead_NONE := 255.

(** encounter_area_3.py:20-21: [for r_val in range(r_val, range_val, step)] with
    [table[r_val] = i] as body; [count] iterations starting at [r]. Returns the table
    and the last value that [r_val] took. NumPy accepts indices from -100 to 99 and
    stores [i] as uint8. *)
Definition table_index (r : Z) : res nat :=
  if ((0 <=? r) && (r <? 100))%Z then Ok (Z.to_nat r)
  else if ((-100 <=? r) && (r <? 0))%Z then Ok (Z.to_nat (r + 100))
  else Raise IndexError.
Fixpoint fill (count : nat) (r : Z) (step : Z) (i : N) (table : list N) (last : Z)
  : res (list N * Z) :=
  match count with
  | O => Ok (table, last)
  | S c =>
      rbind (table_index r) (fun k =>
        fill c (r + step)%Z step i (aset table k (w8 i)) r)
  end.

(** encounter_area_3.py:19-21, the outer loop. [r] is the variable [r_val], which the
    inner loop rebinds. *)
Fixpoint table_loop (ranges : list Z) (greater : bool) (i : N) (r : Z) (table : list N)
  : res (list N) :=
  match ranges with
  | [] => Ok table
  | range_val :: rest =>
      let count := if greater then Z.to_nat (r - range_val) else Z.to_nat (range_val - r) in
      rbind (fill count r (if greater then -1 else 1)%Z i table r)
            (fun '(table, r) => table_loop rest greater (i + 1) r table)
  end.

(** encounter_area_3.py:14-23, [compute_table]. [junk] is what [np.empty(100)] holds. *)
Definition compute_table (junk : list N) (ranges : list Z) (greater : bool)
  : res (list N) :=
  table_loop ranges greater 0 (if greater then 99 else 0)%Z junk.

(** encounter_area_3.py:26-30: the arguments of the module level tables. *)
Definition GRASS_RANGES : list Z := [20; 40; 50; 60; 70; 80; 85; 90; 94; 98; 99; 100]%Z.
Definition OLD_ROD_RANGES : list Z := [70; 100]%Z.
Definition GOOD_ROD_RANGES : list Z := [60; 80; 100]%Z.
Definition SUPER_ROD_RANGES : list Z := [40; 80; 95; 99; 100]%Z.
Definition ROCK_SMASH_AND_SURF_RANGES : list Z := [60; 90; 95; 99; 100]%Z.

(** The module level tables. Every entry is written (proved), so it does not matter
    that the uninitialised arrays are taken to hold zeros. *)
Definition table_of (ranges : list Z) : list N :=
  match compute_table (repeat 0 100) ranges false with Ok t => t | Raise _ => [] end.
Definition GRASS_TABLE := table_of GRASS_RANGES.
Definition OLD_ROD_TABLE := table_of OLD_ROD_RANGES.
Definition GOOD_ROD_TABLE := table_of GOOD_ROD_RANGES.
Definition SUPER_ROD_TABLE := table_of SUPER_ROD_RANGES.
Definition ROCK_SMASH_AND_SURF_TABLE := table_of ROCK_SMASH_AND_SURF_RANGES.

(** The generator threaded through the code: PokeRNGMod (lcrng/__init__.py:16-20). *)
Definition poke_next : N -> N := lcrng32_next (p32_add PokeRNGMod) (p32_mult PokeRNGMod).
Definition poke_next_u16 : N -> N * N :=
  lcrng32_next_u16 (p32_add PokeRNGMod) (p32_mult PokeRNGMod).
Definition poke_next_rand : N -> N -> N * res N :=
  lcrng32_next_rand Numba (p32_dist PokeRNGMod) (p32_add PokeRNGMod) (p32_mult PokeRNGMod).
Definition poke_jump : N -> N -> N * res N :=
  lcrng32_jump (p32_add PokeRNGMod) (p32_mult PokeRNGMod).
(** encounter_area_3.py:32-33, wild_generator_3.py:13-16: [PokeRNGMod.const_rand(n)]. *)
Definition poke_const_rand (n : N) (seed : N) : N * res N :=
  match lcrng32_const_rand Numba (p32_dist PokeRNGMod)
          (p32_add PokeRNGMod) (p32_mult PokeRNGMod) n with
  | Ok f => f seed
  | Raise e => (seed, Raise e)
  end.
Definition hslot_rand := poke_const_rand 100.
Definition rand_2 := poke_const_rand 2.

(** Sequencing of calls that advance the generator and may raise. *)
Definition sbind {A B} (x : N * res A) (f : N -> A -> N * res B) : N * res B :=
  match x with
  | (seed, Ok a) => f seed a
  | (seed, Raise e) => (seed, Raise e)
  end.

(** [slots[table[hslot_rand(rng)]]]. *)
Definition pick (slots : list slot3) (table : list N) (rng : N) : N * res slot3 :=
  sbind (hslot_rand rng) (fun rng r =>
    (rng, rbind (agetr table (N.to_nat r)) (fun k =>
            match nth_error slots (N.to_nat k) with
            | Some s => Ok s
            | None => Raise IndexError
            end))).

(** encounter_area_3.py:36-51, [calculate_hslot]. *)
Definition calculate_hslot (area : area3) (rng encounter_type : N) : N * res slot3 :=
  if encounter_type =? Encounter_OLD_ROD then pick (a_fish_old area) OLD_ROD_TABLE rng
  else if encounter_type =? Encounter_GOOD_ROD then pick (a_fish_good area) GOOD_ROD_TABLE rng
  else if encounter_type =? Encounter_SUPER_ROD then pick (a_fish_super area) SUPER_ROD_TABLE rng
  else if encounter_type =? Encounter_ROCK_SMASH then
    pick (a_rock area) ROCK_SMASH_AND_SURF_TABLE rng
  else if encounter_type =? Encounter_SURFING then
    pick (a_water area) ROCK_SMASH_AND_SURF_TABLE rng
  else pick (a_land area) GRASS_TABLE rng.

(** encounter_area_3.py:54-69, [calculate_hslot_lead]. *)
Definition calculate_hslot_lead (area : area3) (rng encounter_type lead : N)
    (modified_slots : list slot3) : N * res slot3 :=
  if (lead =? Lead_MAGNET_PULL) || (lead =? Lead_STATIC) then
    sbind (rand_2 rng) (fun rng r =>
      if (r =? 0) && negb (length modified_slots =? 0)%nat then
        sbind (poke_next_rand rng (N.of_nat (length modified_slots))) (fun rng k =>
          (rng, match nth_error modified_slots (N.to_nat k) with
                | Some s => Ok s
                | None => Raise IndexError
                end))
      else calculate_hslot area rng encounter_type)
  else calculate_hslot area rng encounter_type.

(** encounter_area_3.py:72-84, [calculate_level]. The levels are uint8; the difference
    is a 64-bit integer, of which [next_rand] keeps 16 bits; the sum is returned as a
    64-bit integer. *)
Definition calculate_level (slot : slot3) (rng : N) (pressure : bool) : N * res N :=
  let minimum := s_min_level slot in
  let maximum := s_max_level slot in
  let level_range := w64 (sub64 maximum minimum + 1) in
  sbind (poke_next_rand rng level_range) (fun rng rand =>
    if pressure then
      sbind (rand_2 rng) (fun rng r =>
        (rng, Ok (if r =? 0 then maximum
                  else if negb (rand =? 0) then minimum + (rand - 1)
                  else minimum + rand)))
    else (rng, Ok (minimum + rand))).

(** encounter_area_3.py:87-113, [is_rse_safari_zone]. *)
Definition is_rse_safari_zone (area : area3) (game : N) : bool :=
  let location := a_location area in
  if negb (N.land game (N.lor Game_RUBY Game_SAPPHIRE) =? 0) then
    existsb (N.eqb location) [90; 187; 89; 186; 92; 189; 91; 188]
  else if negb (N.land game Game_EMERALD =? 0) then
    existsb (N.eqb location) [73; 98; 74; 20; 97; 72]
  else false.

(** encounter_area_3.py:127-154: the type a lead attracts, or nothing. *)
Definition lead_type (lead game : N) : option N :=
  if lead =? Lead_MAGNET_PULL then Some 8
  else if lead =? Lead_STATIC then
    Some (if negb (N.land game
                     (fold_left N.lor [Game_SAPPHIRE; Game_EMERALD; Game_FIRE_RED;
                                       Game_LEAF_GREEN; Game_DIAMOND; Game_PEARL;
                                       Game_PLATINUM; Game_HEART_GOLD; Game_SOUL_SILVER]
                                Game_RUBY) =? 0)
          then 13 else 12)
  else if lead =? Lead_HARVEST then Some 11
  else if lead =? Lead_FLASH_FIRE then Some 9
  else if lead =? Lead_STORM_DRAIN then Some 10
  else None.

(** encounter_area_3.py:158-161 (and the five copies of that loop). *)
Fixpoint matching_slots (slots : list slot3) (t : N) (table : list personal3)
  : res (list slot3) :=
  match slots with
  | [] => Ok []
  | s :: rest =>
      match nth_error table (N.to_nat (N.land (s_species s) 0x3FF)) with
      | None => Raise IndexError
      | Some info =>
          rmap (fun l => if (pi_type_1 info =? t) || (pi_type_2 info =? t)
                         then s :: l else l)
               (matching_slots rest t table)
      end
  end.

(** encounter_area_3.py:116-188, [get_modified_slots]. The Python code appends; the
    list is built front to back here. *)
Definition get_modified_slots (area : area3) (encounter_type lead game : N)
    (table : list personal3) : res (list slot3) :=
  match lead_type lead game with
  | None => Ok []
  | Some t =>
      if encounter_type =? Encounter_OLD_ROD then matching_slots (a_fish_old area) t table
      else if encounter_type =? Encounter_GOOD_ROD then matching_slots (a_fish_good area) t table
      else if encounter_type =? Encounter_SUPER_ROD then matching_slots (a_fish_super area) t table
      else if encounter_type =? Encounter_ROCK_SMASH then matching_slots (a_rock area) t table
      else if encounter_type =? Encounter_SURFING then matching_slots (a_water area) t table
      else matching_slots (a_land area) t table
  end.

(** encounter_area_3.py:191-202, [get_encounter_rate]. *)
Definition get_encounter_rate (area : area3) (encounter_type : N) : N :=
  if encounter_type =? Encounter_GRASS then a_fish_rate area
  else if encounter_type =? Encounter_ROCK_SMASH then a_rock_rate area
  else if encounter_type =? Encounter_SURFING then a_water_rate area
  else a_land_rate area.
