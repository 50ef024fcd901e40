(** What one wild encounter of generation 3 is, in terms of the numbered rands of the
    main generator: which rand decides what. From the model this file only takes the
    data records and the names of enum members. *)
From Coq Require Import NArith ZArith List Bool.
From Verif Require Import Spec.LcrngSpec Spec.Gen3Spec Model.Gen3State Model.Gen3Area
  Model.Gen3Wild.
Import ListNotations.
Open Scope N_scope.

(** The list of slots that belongs to an encounter type. *)
Definition slots_of (area : area3) (e : N) : list slot3 :=
  if e =? Encounter_OLD_ROD then a_fish_old area
  else if e =? Encounter_GOOD_ROD then a_fish_good area
  else if e =? Encounter_SUPER_ROD then a_fish_super area
  else if e =? Encounter_ROCK_SMASH then a_rock area
  else if e =? Encounter_SURFING then a_water area
  else a_land area.

(** Cumulative slot percentages of the games, by encounter type. *)
Definition cumulative_of (e : N) : list Z :=
  if e =? Encounter_OLD_ROD then [70; 100]%Z
   else if e =? Encounter_GOOD_ROD then [60; 80; 100]%Z
   else if e =? Encounter_SUPER_ROD then [40; 80; 95; 99; 100]%Z
   else if e =? Encounter_ROCK_SMASH then [60; 90; 95; 99; 100]%Z
   else if e =? Encounter_SURFING then [60; 90; 95; 99; 100]%Z
   else [20; 40; 50; 60; 70; 80; 85; 90; 94; 98; 99; 100]%Z.

(** Sizes of the slot lists (EncounterArea3). *)
Definition area_shape (area : area3) : Prop :=
  length (a_land area) = 12%nat /\ length (a_water area) = 5%nat /\
  length (a_rock area) = 5%nat /\ length (a_fish_old area) = 2%nat /\
  length (a_fish_good area) = 3%nat /\ length (a_fish_super area) = 5%nat.

(** Levels of a slot are bytes, in order; the species field has 16 bits. *)
Definition slot_ok (s : slot3) : Prop :=
  s_min_level s <= s_max_level s /\ s_max_level s < 256 /\ s_species s < 65536.
Definition area_ok (area : area3) : Prop :=
  area_shape area /\ forall e, Forall slot_ok (slots_of area e).

(** Fields of a personal record are bytes. *)
Definition info_ok (i : personal3) : Prop :=
  pi_hp i < 256 /\ pi_attack i < 256 /\ pi_defense i < 256 /\ pi_speed i < 256 /\
  pi_special_attack i < 256 /\ pi_special_defense i < 256 /\ pi_gender_ratio i < 256.

Definition species_of (s : slot3) : N := s_species s mod 2048.
Definition form_of (s : slot3) : N := s_species s / 2048.

Definition is_rse (game : N) : bool :=
  N.testbit game 0 || N.testbit game 1 || N.testbit game 2.

(** The location numbers of the safari zones of Hoenn, where a rand is spent before the nature. *)
Definition safari_places (game : N) : list N :=
  if N.testbit game 0 || N.testbit game 1 then [89; 90; 91; 92; 186; 187; 188; 189]
  else if N.testbit game 2 then [20; 72; 73; 74; 97; 98] else [].

(** The personal records of a game: one table for Ruby and Sapphire, one for each other game. *)
Definition records_of (t : tables3) (game : N) : list personal3 :=
  if N.testbit game 0 || N.testbit game 1 then t_rs t else if N.testbit game 2 then t_e t
  else if N.testbit game 3 then t_fr t else t_lg t.

Section Encounter.
Variable x : N -> N.             (** the rands, from 1 *)
Variable g : wildgen.
Variable area : area3.
Variable mods : list slot3.      (** slots preferred by Magnet Pull or Static *)
Variable safari : bool.          (** the area is in the RSE safari zone *)

(** Rock smash in Ruby, Sapphire and Emerald first draws whether there is an encounter. *)
Definition needs_check : bool := is_rse (w_game g) && (w_encounter g =? Encounter_ROCK_SMASH).
Definition check_fails : bool := needs_check && (16 * a_rock_rate area <=? x 1 mod 2880).
Definition after_check : N := if needs_check then 1 else 0.

(** The functions below return what is drawn and the number of rands used so far. *)
Definition slot_choice (p : N) : option slot3 * N :=
  let ordinary q :=
    nth_error (slots_of area (w_encounter g))
      (N.to_nat (slot_one_early (cumulative_of (w_encounter g)) (Z.of_N (x (q + 1) mod 100)))) in
  if (w_lead g =? Lead_MAGNET_PULL) || (w_lead g =? Lead_STATIC) then
    if (x (p + 1) mod 2 =? 0) && negb (length mods =? 0)%nat
    then (nth_error mods (N.to_nat (x (p + 2) mod N.of_nat (length mods))), p + 2)
    else (ordinary (p + 1), p + 2)
  else (ordinary p, p + 1).

Definition level_choice (s : slot3) (p : N) : N * N :=
  let r := x (p + 1) mod (s_max_level s - s_min_level s + 1) in
  if w_lead g =? Lead_PRESSURE then
    (if x (p + 2) mod 2 =? 0 then s_max_level s else s_min_level s + (r - 1), p + 2)
  else (s_min_level s + r, p + 1).

Definition is_cute_charm : bool :=
  (w_lead g =? Lead_CUTE_CHARM_M) || (w_lead g =? Lead_CUTE_CHARM_F).
(** As the code has it: the charm is rolled for species of one gender or none. *)
Definition charm_choice (ratio : N) (p : N) : bool * N :=
  if is_cute_charm then
    if (0 <? ratio) && (ratio <? 254) then (false, p)
    else (negb (x (p + 1) mod 3 =? 0), p + 1)
  else (false, p).

Definition nature_choice (p : N) : N * N :=
  if w_lead g <=? Lead_SYNCHRONIZE_QUIRKY then
    if x (p + 1) mod 2 =? 0 then (w_lead g, p + 1) else (x (p + 2) mod 25, p + 2)
  else (x (p + 1) mod 25, p + 1).

Definition pid_at (p : N) : N := x (p + 1) + 65536 * x (p + 2).

Definition accepts (ratio nature species form : N) (charm : bool) (pid : N) : Prop :=
  pid mod 25 = nature /\
  (charm = true ->
     if w_lead g =? Lead_CUTE_CHARM_F then ratio <= pid mod 256 else pid mod 256 < ratio) /\
  (species = 201 -> unown_letter pid = form).

Definition ivs_from (iv1 iv2 : N) : list N :=
  [iv1 mod 32; iv1 / 32 mod 32; iv1 / 1024 mod 32;
   iv2 / 32 mod 32; iv2 / 1024 mod 32; iv2 mod 32].

(** The IV rands after an accepted PID that used [p] rands: Method 2 skips one rand
    before the first, Method 4 one between the two. *)
Definition iv1_pos (p : N) : N := p + (if w_method g =? Method_METHOD_2 then 2 else 1).
Definition iv2_pos (p : N) : N := iv1_pos p + (if w_method g =? Method_METHOD_4 then 2 else 1).

(** Everything drawn in one encounter. *)
Record draws := mkDraws {
  d_slot : slot3; d_level : N; d_info : personal3; d_charm : bool; d_nature : N;
  d_first : N;      (** rands used before the first PID *)
  d_tries : N;      (** PIDs rejected *)
  d_pid : N; d_ivs : list N }.

Definition drawn (d : draws) : Prop :=
  check_fails = false /\
  exists p1 p2 p3 p4,
    slot_choice after_check = (Some (d_slot d), p1) /\
    level_choice (d_slot d) p1 = (d_level d, p2) /\
    nth_error (w_table g) (N.to_nat (species_of (d_slot d))) = Some (d_info d) /\
    charm_choice (pi_gender_ratio (d_info d)) p2 = (d_charm d, p3) /\
    p4 = p3 + (if safari then 1 else 0) /\
    nature_choice p4 = (d_nature d, d_first d) /\
    let ok := accepts (pi_gender_ratio (d_info d)) (d_nature d) (species_of (d_slot d))
                (form_of (d_slot d)) (d_charm d) in
    (forall j, j < d_tries d -> ~ ok (pid_at (d_first d + 2 * j))) /\
    d_pid d = pid_at (d_first d + 2 * d_tries d) /\ ok (d_pid d) /\
    let p := d_first d + 2 * d_tries d + 2 in
    d_ivs d = ivs_from (x (iv1_pos p)) (x (iv2_pos p)).

(** [st] is the state of a drawn encounter at an advance. The stats are described
    separately. *)
Definition state_of (advance : N) (d : draws) (st : gstate) : Prop :=
  g_advance st = advance /\ g_pid st = d_pid d /\
  g_species st = species_of (d_slot d) /\ g_form st = form_of (d_slot d) /\
  g_level st = d_level d /\ g_ivs st = d_ivs d /\
  g_nature st = d_nature d /\ g_nature st = d_pid d mod 25 /\
  g_ability st = d_pid d mod 2 /\
  g_ability_index st = (if d_pid d mod 2 =? 0 then pi_ability_1 (d_info d)
                        else pi_ability_2 (d_info d)) /\
  g_gender st = gender_code (gender_of (d_pid d) (pi_gender_ratio (d_info d))) /\
  g_shiny st = shiny_code (shiny_of (d_pid d) (w_tsv g)) /\
  characteristic_is (d_pid d) (d_ivs d) (g_characteristic st) /\
  g_hidden_power st = hidden_power_type (d_ivs d) /\
  g_hidden_power_strength st = AInt (hidden_power_power (d_ivs d)).

End Encounter.

(** * Leads that attract a type *)

(** resources/txt/types_en.txt numbers the types Steel 8, Fire 9, Water 10, Grass 11,
    Electric 12, Psychic 13; the personal tables use these numbers. *)
Definition attracted_type (lead : N) : option N :=
  if lead =? Lead_MAGNET_PULL then Some 8
  else if lead =? Lead_STATIC then Some 12
  else if lead =? Lead_HARVEST then Some 11
  else if lead =? Lead_FLASH_FIRE then Some 9
  else if lead =? Lead_STORM_DRAIN then Some 10
  else None.

(** The species of a slot has a type. *)
Definition has_type (table : list personal3) (t : N) (sl : slot3) : bool :=
  match nth_error table (N.to_nat (species_of sl)) with
  | Some i => (pi_type_1 i =? t) || (pi_type_2 i =? t)
  | None => false
  end.

(** * Settings of the generator *)

(** A personal table of at most 1024 byte records that has every species of the area. *)
Definition covers (table : list personal3) (slots : list slot3) : Prop :=
  N.of_nat (length table) <= 1024 /\
  Forall (fun sl => species_of sl < N.of_nat (length table)) slots.
Definition setting_ok (g : wildgen) (area : area3) : Prop :=
  area_ok area /\ Forall info_ok (w_table g) /\
  covers (w_table g) (slots_of area (w_encounter g)).

(** The PIDs of a wild encounter can meet all its conditions: an Unown has one of the
    28 letters, and the gender Cute Charm asks for is possible. *)
Definition satisfiable (lead ratio species form : N) (charm : bool) : Prop :=
  (species = 201 -> form < 28) /\
  (charm = true -> lead = Lead_CUTE_CHARM_F ->
     species = 201 -> (ratio = 254 -> 2 <= form mod 4) /\ (ratio = 255 -> form mod 4 = 3)) /\
  (charm = true -> lead <> Lead_CUTE_CHARM_F -> ratio <> 0).

(** * Stats *)

(** The stats HP, Atk, Def, SpA, SpD, Spe of a Pokemon. *)
Definition true_stats (pid level : N) (ivs : list N) (info : personal3) : list N :=
  let iv i := nth i ivs 0 in
  let n := pid mod 25 in
  [hp_stat (pi_hp info) (iv 0%nat) level;
   nature_stat n Atk (raw_stat (pi_attack info) (iv 1%nat) level);
   nature_stat n Def (raw_stat (pi_defense info) (iv 2%nat) level);
   nature_stat n SpA (raw_stat (pi_special_attack info) (iv 3%nat) level);
   nature_stat n SpD (raw_stat (pi_special_defense info) (iv 4%nat) level);
   nature_stat n Spe (raw_stat (pi_speed info) (iv 5%nat) level)].

(** The same with the last three modifiers in the order Spe, SpA, SpD. *)
Definition code_stats (pid level : N) (ivs : list N) (info : personal3) : list N :=
  let iv i := nth i ivs 0 in
  let n := pid mod 25 in
  [hp_stat (pi_hp info) (iv 0%nat) level;
   nature_stat n Atk (raw_stat (pi_attack info) (iv 1%nat) level);
   nature_stat n Def (raw_stat (pi_defense info) (iv 2%nat) level);
   nature_stat n Spe (raw_stat (pi_special_attack info) (iv 3%nat) level);
   nature_stat n SpA (raw_stat (pi_special_defense info) (iv 4%nat) level);
   nature_stat n SpD (raw_stat (pi_speed info) (iv 5%nat) level)].

(** The encounter rate of an encounter type. *)
Definition rate_of (area : area3) (e : N) : N :=
  if e =? Encounter_ROCK_SMASH then a_rock_rate area
  else if e =? Encounter_SURFING then a_water_rate area
  else if (e =? Encounter_OLD_ROD) || (e =? Encounter_GOOD_ROD) || (e =? Encounter_SUPER_ROD)
  then a_fish_rate area
  else a_land_rate area.
