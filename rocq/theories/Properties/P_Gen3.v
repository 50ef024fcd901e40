(** Properties C40 to C52: generation 3 states, encounter areas and the wild generator. *)
From Coq Require Import NArith ZArith List Bool Lia.
From Verif Require Import Base.Word Model.Float Model.Gen3State Model.Gen3Area Model.Gen3Wild
  Spec.LcrngSpec Spec.Gen3Spec Spec.Gen3WildSpec.
From Verif Require Import Proofs.Gen3StateProofs Proofs.Gen3StateInit Proofs.Gen3AreaProofs
  Proofs.Gen3Draws Proofs.Gen3Pid Proofs.Gen3Generate Proofs.Gen3Final Proofs.Gen3Props
  Proofs.Gen3Construct.
Import ListNotations.
Open Scope N_scope.

(** The main generator stepped [k] times from [s]. *)
Notation after k s := (lcg_steps 32 0x41C64E6D 0x6073 k s).

(** * Data for the examples *)

Definition ex_info (ratio t1 t2 : N) : personal3 :=
  {| pi_hp := 65; pi_attack := 73; pi_defense := 55; pi_speed := 85; pi_special_attack := 47;
     pi_special_defense := 75; pi_type_1 := t1; pi_type_2 := t2; pi_gender_ratio := ratio;
     pi_ability_1 := 35; pi_ability_2 := 68 |}.
Definition ex_table : list personal3 :=
  [ex_info 127 0 0; ex_info 127 12 12; ex_info 0 6 6; ex_info 63 13 13]
  ++ repeat (ex_info 127 0 0) 197 ++ [ex_info 255 13 13].
Definition ex_tables := mkTables3 ex_table ex_table ex_table ex_table.
Definition sl min max species := mkSlot3 min max species.
Definition ex_area : area3 :=
  {| a_location := 5; a_land_rate := 20;
     a_land := [sl 3 7 1; sl 4 6 3; sl 3 3 2; sl 5 9 1; sl 3 7 3; sl 4 6 2;
                sl 3 3 (201 + 2048 * 5); sl 5 9 1; sl 3 7 1; sl 4 6 1; sl 3 3 3;
                sl 5 9 (201 + 2048 * 27)];
     a_water_rate := 4; a_water := [sl 5 35 1; sl 10 30 2; sl 15 25 1; sl 25 30 2; sl 30 35 3];
     a_rock_rate := 90; a_rock := [sl 5 35 1; sl 10 30 2; sl 15 25 1; sl 25 30 2; sl 30 35 3];
     a_fish_rate := 30; a_fish_old := [sl 5 10 2; sl 5 10 2];
     a_fish_good := [sl 10 30 1; sl 10 30 2; sl 10 30 3];
     a_fish_super := [sl 25 30 1; sl 30 35 2; sl 20 25 3; sl 35 40 1; sl 40 45 2] |}.
Definition junk : list N := [9; 9; 9; 9; 9; 9].
Definition ex_gen lead e game := wild_new ex_tables 1 e lead game 12345 54321.

Lemma ex_setting lead e game : setting_ok (ex_gen lead e game) ex_area.
Proof.
  assert (T : w_table (ex_gen lead e game) = ex_table).
  { unfold ex_gen, wild_new, get_info_table_3. cbn [w_table ex_tables t_rs t_e t_fr t_lg].
    destruct (negb _); [reflexivity|]. destruct (negb _); [reflexivity|]. destruct (negb _); reflexivity. }
  assert (S : forall e', Forall (fun s => slot_ok s /\ species_of s < 202) (slots_of ex_area e')).
  { intros e'. unfold slots_of. destruct (e' =? _); [|destruct (e' =? _); [|destruct (e' =? _);
      [|destruct (e' =? _); [|destruct (e' =? _)]]]];
    repeat constructor; vm_compute; discriminate. }
  unfold setting_ok. rewrite T. split; [|split; [|split]].
  - split; [repeat split|]. intros e'. eapply Forall_impl; [|apply S]. now intros a [H _].
  - apply Forall_forall. intros i Hi. unfold ex_table in Hi.
    apply in_app_or in Hi. destruct Hi as [Hi|Hi].
    + repeat (destruct Hi as [<-|Hi]; [repeat split|]). destruct Hi.
    + apply in_app_or in Hi. destruct Hi as [Hi|Hi].
      * apply repeat_spec in Hi. subst. repeat split.
      * destruct Hi as [<-|[]]. repeat split.
  - vm_compute. discriminate.
  - eapply Forall_impl; [|apply S]. intros a [_ H]. exact H.
Qed.

(** * C40 to C43: states *)

(** C40. The nature modifiers are exact although they are computed in float32. *)
Theorem C40_stat_modifiers_exact : forall s n i,
  s < 2^16 -> s * 11 / 10 < 2^16 -> n < 25 -> 1 <= i <= 5 ->
  compute_stat s n i = Ok (modified (n / 5 =? i - 1) (n mod 5 =? i - 1) s).
Proof. exact c40. Qed.
Print Assumptions C40_stat_modifiers_exact.
Example C40_case : compute_stat 59577 3 1 = Ok 65534 /\ compute_stat 59577 3 4 = Ok 53619
  /\ compute_stat 65535 3 4 = Ok 58981.
Proof. now vm_compute. Qed.

(** C41. The modifiers of the special stats and of the speed go to the wrong stats. *)
Theorem C41_natures_actual : forall m junk advance pid species form ivs ability level shiny info st,
  length junk = 6%nat -> pid < 2^32 -> level < 256 -> Forall (fun v => v < 32) ivs -> info_ok info ->
  gstate_new m junk advance pid species form ivs ability level shiny info = Ok st ->
  g_stats st = code_stats pid level ivs info.
Proof. exact new_stats. Qed.
Print Assumptions C41_natures_actual.

(** Missing from the claim: the other 18 natures. *)
Theorem C41_natures_partial : forall pid level ivs info,
  In (pid mod 25) [0; 1; 5; 6; 12; 18; 24] ->
  code_stats pid level ivs info = true_stats pid level ivs info.
Proof. exact good_natures. Qed.
Print Assumptions C41_natures_partial.

(** A Timid Pokemon, speed raised and attack lowered: the special attack is raised. *)
Theorem C41_natures_refuted :
  rmap g_stats (gstate_new Numba junk 0 10 1 0 [31; 31; 31; 31; 31; 31] 0 50 0 (ex_info 127 0 0))
    = Ok [140; 83; 75; 73; 95; 105] /\
  true_stats 10 50 [31; 31; 31; 31; 31; 31] (ex_info 127 0 0) = [140; 83; 75; 67; 95; 115].
Proof. now vm_compute. Qed.
Print Assumptions C41_natures_refuted.
Example C41_case : true_stats 5 50 [31; 30; 29; 28; 27; 26] (ex_info 127 0 0) = [140; 83; 81; 66; 93; 103].
Proof. now vm_compute. Qed.

(** C42. *)
Theorem C42_gender : forall pid ratio, get_gender pid ratio = gender_code (gender_of pid ratio).
Proof. exact c42_gender. Qed.
Print Assumptions C42_gender.
Theorem C42_shiny : forall pid tsv, get_shiny pid tsv = shiny_code (shiny_of pid tsv).
Proof. exact c42_shiny. Qed.
Print Assumptions C42_shiny.
Theorem C42_unown : forall pid form, unown_check pid form = true <-> form = unown_letter pid.
Proof. intros pid form. rewrite unown_letter_eq, N.eqb_eq. split; auto. Qed.
Print Assumptions C42_unown.
Theorem C42_one_letter : forall pid, exists l, l < 28 /\ forall form, unown_check pid form = true <-> form = l.
Proof. exact c42_unown. Qed.
Print Assumptions C42_one_letter.
Example C42_case :
  map (get_gender 0x1234567E) [0; 126; 127; 254; 255] = [0; 0; 1; 1; 2] /\
  map (get_shiny 0x12345670) [0x4444; 0x4440; 0x444C] = [2; 1; 0] /\
  map (unown_check 0x03020100) [0; 2; 4; 12; 27] = [false; false; true; false; false] /\
  unown_letter 0x03020100 = 4.
Proof. now vm_compute. Qed.

(** C43. Without numba the strength is stored as the float before truncation. *)
Theorem C43_characteristic_and_hidden_power :
  forall m junk advance pid species form ivs ability level shiny info,
  length junk = 6%nat -> pid < 2^32 -> level < 256 -> Forall (fun v => v < 32) ivs -> info_ok info ->
  exists st, gstate_new m junk advance pid species form ivs ability level shiny info = Ok st /\
    characteristic_is pid ivs (g_characteristic st) /\
    g_hidden_power st = hidden_power_type ivs /\ g_hidden_power st < 16 /\
    30 <= hidden_power_power ivs <= 70 /\
    match g_hidden_power_strength st with
    | AInt n => m = Numba /\ n = hidden_power_power ivs
    | AFloat f => m = NumPy /\ Z.to_N (f_trunc f) = hidden_power_power ivs
    end.
Proof. exact new_char. Qed.
Print Assumptions C43_characteristic_and_hidden_power.
Example C43_case :
  rmap (fun st => (g_characteristic st, g_hidden_power st, g_hidden_power_strength st))
    (gstate_new Numba junk 0 5 1 0 [31; 30; 12; 31; 7; 31] 0 50 0 (ex_info 127 0 0))
    = Ok (1, 13, AInt 67).
Proof. now vm_compute. Qed.

(** * C44 to C48: encounter areas *)

(** C44. Every slot but the last ends one roll early, whatever the uninitialised array
    held. *)
Theorem C44_slot_table_actual : forall junk ranges,
  length junk = 100%nat -> increasing_to_100 0 ranges ->
  exists t, compute_table junk ranges false = Ok t /\ length t = 100%nat /\
    forall r, r < 100 ->
      nth (N.to_nat r) t 0 =
        slot_of_roll ranges (Z.of_N r) +
        (if existsb (Z.eqb (Z.of_N r + 1)) ranges && (r + 1 <? 100) then 1 else 0).
Proof.
  intros jk ranges Hj Hr. destruct (c44_actual jk ranges Hj Hr) as (t & E & L & G).
  exists t. split; [exact E|]. split; [exact L|]. intros r Hlt.
  change (nth (N.to_nat r) t 0) with (aget t (N.to_nat r)). rewrite (G r Hlt).
  rewrite (early_vs_roll ranges 0%Z (Z.of_N r) Hr) by lia.
  f_equal. f_equal. f_equal.
  destruct (Z.ltb_spec (Z.of_N r + 1) 100), (N.ltb_spec (r + 1) 100); lia || reflexivity.
Qed.
Print Assumptions C44_slot_table_actual.

Theorem C44_slot_table_refuted :
  exists r, r < 100 /\
    nth (N.to_nat r) GRASS_TABLE 0 <> slot_of_roll GRASS_RANGES (Z.of_N r).
Proof. exists 19. split; [lia|]. vm_compute. discriminate. Qed.
Print Assumptions C44_slot_table_refuted.
(** How many of the 100 rolls each grass slot has, instead of 20, 20, 10, ... *)
Example C44_case :
  map (fun k => length (filter (N.eqb k) GRASS_TABLE)) [0; 1; 2; 3; 4; 5; 6; 7; 8; 9; 10; 11]
    = [19; 20; 10; 10; 10; 10; 5; 5; 4; 4; 1; 2]%nat.
Proof. now vm_compute. Qed.

(** C45. *)
Theorem C45_slot_of_the_area : forall area e s, area_shape area -> s < 2^32 ->
  exists slot, calculate_hslot area s e = (after 1 s, Ok slot) /\ In slot (slots_of area e).
Proof. exact hslot_in. Qed.
Print Assumptions C45_slot_of_the_area.
Theorem C45_slot_with_lead : forall area e lead mods s, area_shape area -> s < 2^32 ->
  N.of_nat (length mods) < 65536 ->
  exists slot, calculate_hslot_lead area s e lead mods =
      (after (if (lead =? Lead_MAGNET_PULL) || (lead =? Lead_STATIC) then 2 else 1) s, Ok slot) /\
    (In slot (slots_of area e) \/ In slot mods).
Proof. exact hslot_lead_in. Qed.
Print Assumptions C45_slot_with_lead.
(** Which slot: the one the roll table gives, for every seed. *)
Theorem C45_slot_by_roll : forall area e s, area_shape area -> s < 2^32 ->
  snd (calculate_hslot area s e) =
    match nth_error (slots_of area e)
            (N.to_nat (slot_one_early (cumulative_of e) (Z.of_N (rand_at s 1 mod 100)))) with
    | Some slot => Ok slot
    | None => Raise IndexError
    end.
Proof. intros area e s _ Hs. exact (f_equal snd (hslot_steps area e 0 s Hs)). Qed.
Print Assumptions C45_slot_by_roll.
Example C45_case : snd (calculate_hslot ex_area 0xDEADBEEF 7) = Ok (sl 10 30 2) /\
  snd (calculate_hslot_lead ex_area 2 0 27 [sl 1 2 3; sl 4 5 6]) = Ok (sl 4 5 6).
Proof. now vm_compute. Qed.

(** C46. *)
Theorem C46_level : forall slot s, slot_ok slot -> s < 2^32 ->
  let l := s_min_level slot + rand_at s 1 mod (s_max_level slot - s_min_level slot + 1) in
  calculate_level slot s false = (after 1 s, Ok l) /\ s_min_level slot <= l <= s_max_level slot.
Proof. exact level_plain. Qed.
Print Assumptions C46_level.
Theorem C46_level_pressure : forall slot s, slot_ok slot -> s < 2^32 ->
  let unmodified := s_min_level slot + rand_at s 1 mod (s_max_level slot - s_min_level slot + 1) in
  exists l, calculate_level slot s true = (after 2 s, Ok l) /\
    s_min_level slot <= l <= s_max_level slot /\
    (rand_at s 2 mod 2 = 0 -> l = s_max_level slot) /\
    (rand_at s 2 mod 2 <> 0 -> l = N.max (s_min_level slot) (unmodified - 1)).
Proof. exact level_pressure. Qed.
Print Assumptions C46_level_pressure.
Example C46_case : slot_ok (sl 5 35 1) /\
  map (fun s => snd (calculate_level (sl 5 35 1) s false)) [1; 2; 3] = [Ok 10; Ok 15; Ok 21] /\
  map (fun s => snd (calculate_level (sl 5 35 1) s true)) [1; 2; 3] = [Ok 9; Ok 14; Ok 35].
Proof. split; [repeat split; vm_compute; discriminate|]. now vm_compute. Qed.

(** C47. Missing: the lead Static, which looks for the wrong type. *)
Theorem C47_modified_slots_partial : forall area e lead game table,
  covers table (slots_of area e) -> lead <> Lead_STATIC ->
  get_modified_slots area e lead game table =
    Ok (match attracted_type lead with
        | Some t => filter (has_type table t) (slots_of area e)
        | None => []
        end).
Proof. exact modified_partial. Qed.
Print Assumptions C47_modified_slots_partial.
(** With Static it returns the Psychic (13) slots for every generation 3 and 4 game. *)
Theorem C47_static_actual : forall area e game table,
  covers table (slots_of area e) ->
  (exists k, N.testbit game k = true /\ (k < 5 \/ 8 <= k < 12)) ->
  get_modified_slots area e Lead_STATIC game table = Ok (filter (has_type table 13) (slots_of area e)).
Proof. exact modified_static. Qed.
Print Assumptions C47_static_actual.
Theorem C47_static_refuted : exists area e table,
  covers table (slots_of area e) /\
  exists l, get_modified_slots area e Lead_STATIC Game_EMERALD table = Ok l /\
    ~ In (sl 10 30 1) l /\ In (sl 10 30 1) (slots_of area e) /\ has_type table 12 (sl 10 30 1) = true /\
    In (sl 10 30 3) l /\ has_type table 12 (sl 10 30 3) = false.
Proof.
  exists ex_area, Encounter_GOOD_ROD, ex_table. split; [apply (ex_setting 0 7 4)|].
  exists [sl 10 30 3]. split; [now vm_compute|].
  split; [intros [H|[]]; discriminate H|]. split; [now left|]. split; [reflexivity|].
  split; [now left|reflexivity].
Qed.
Print Assumptions C47_static_refuted.
Example C47_case : get_modified_slots ex_area 7 Lead_FLASH_FIRE Game_EMERALD ex_table = Ok [] /\
  get_modified_slots ex_area 7 Lead_MAGNET_PULL Game_EMERALD
    [ex_info 0 0 0; ex_info 0 8 1; ex_info 0 1 8; ex_info 0 2 2] = Ok [sl 10 30 1; sl 10 30 2].
Proof. now vm_compute. Qed.

(** C48. Missing: land and fishing. *)
Theorem C48_encounter_rate_partial : forall area e,
  e = Encounter_ROCK_SMASH \/ e = Encounter_SURFING -> get_encounter_rate area e = rate_of area e.
Proof. intros area e [-> | ->]; reflexivity. Qed.
Print Assumptions C48_encounter_rate_partial.
Theorem C48_encounter_rate_actual : forall area,
  get_encounter_rate area Encounter_GRASS = a_fish_rate area /\
  get_encounter_rate area Encounter_OLD_ROD = a_land_rate area /\
  get_encounter_rate area Encounter_GOOD_ROD = a_land_rate area /\
  get_encounter_rate area Encounter_SUPER_ROD = a_land_rate area.
Proof. intros area. repeat split. Qed.
Print Assumptions C48_encounter_rate_actual.
Theorem C48_encounter_rate_refuted : exists area e, get_encounter_rate area e <> rate_of area e.
Proof. exists ex_area, Encounter_GRASS. vm_compute. discriminate. Qed.
Print Assumptions C48_encounter_rate_refuted.
Example C48_case : map (get_encounter_rate ex_area) [0; 3; 4; 6; 7; 8] = [30; 90; 4; 20; 20; 20]
  /\ map (rate_of ex_area) [0; 3; 4; 6; 7; 8] = [20; 90; 4; 30; 30; 30].
Proof. now vm_compute. Qed.

(** * C49 to C52: the generator *)

(** C49. Outside of rock smash in Ruby, Sapphire and Emerald. *)
Theorem C49_each_advance_partial : forall fuel junk g seed delay initial max area l,
  seed < 2^32 -> initial + delay + max < 2^32 -> needs_check g = false -> 0 < max ->
  (wild_generate fuel junk g seed delay initial max area = Ok l <->
   length l = N.to_nat max /\
   forall i, i < max -> exists st,
     wild_generate fuel junk g (after (initial + i + delay) seed) 0 0 1 area = Ok [st] /\
     nth_error l (N.to_nat i) = Some (at_advance (initial + i) st)).
Proof. exact generate_each. Qed.
Print Assumptions C49_each_advance_partial.
(** Ranges can be split and concatenated, exceptions included. *)
Theorem C49_split_partial : forall fuel junk g seed delay initial m n area,
  seed < 2^32 -> initial + m + delay < 2^32 -> needs_check g = false ->
  wild_generate fuel junk g seed delay initial (m + n) area =
  rbind (wild_generate fuel junk g seed delay initial m area) (fun a =>
    rmap (app a) (wild_generate fuel junk g seed delay (initial + m) n area)).
Proof. exact generate_split. Qed.
Print Assumptions C49_split_partial.
(** In general: the states of the advances before the first failed rock smash check, and
    nothing after it. *)
Theorem C49_prefix_actual : forall fuel junk g seed delay initial max area l,
  length junk = 6%nat -> setting_ok g area ->
  seed < 2^32 -> initial + delay < 2^32 -> initial + max <= 2^32 ->
  wild_generate fuel junk g seed delay initial max area = Ok l ->
  let fails i := check_fails (rand_at (after (initial + i + delay) seed)) g area in
  let n := N.of_nat (length l) in
  n <= max /\ (forall i, i < n -> fails i = false) /\ (n < max -> fails n = true).
Proof.
  intros. destruct (generate_sound _ _ _ _ _ _ _ _ _ H H0 H1 H2 H3 H4) as (K1 & K2 & K3).
  split; [exact K1|]. split; [|exact K3]. intros i Hi. destruct (K2 i Hi) as (st & _ & K & _). exact K.
Qed.
Print Assumptions C49_prefix_actual.
(** Emerald rock smash, seed 1: advance 1 has an encounter, but not when advance 0, which
    has none, is generated as well. *)
Theorem C49_rock_smash_refuted :
  let g := ex_gen Lead_NONE Encounter_ROCK_SMASH Game_EMERALD in
  rmap (@length gstate) (wild_generate 2000 junk g 1 0 0 2 ex_area) = Ok 0%nat /\
  rmap (@length gstate) (wild_generate 2000 junk g 1 0 1 1 ex_area) = Ok 1%nat.
Proof. now vm_compute. Qed.
Print Assumptions C49_rock_smash_refuted.
Example C49_case :
  let g := ex_gen 3 Encounter_GRASS Game_EMERALD in
  needs_check g = false /\
  rmap (map (fun st => (g_advance st, g_pid st))) (wild_generate 2000 junk g 7 3 10 3 ex_area)
    = Ok [(10, 3729988828); (11, 2546347328); (12, 3294637337)].
Proof. now vm_compute. Qed.

(** C50. Every field of every generated state, by the rands it is drawn from. *)
Theorem C50_states_are_drawn : forall fuel junk g seed delay initial max area l,
  length junk = 6%nat -> setting_ok g area ->
  seed < 2^32 -> initial + delay < 2^32 -> initial + max <= 2^32 ->
  wild_generate fuel junk g seed delay initial max area = Ok l ->
  forall i st, nth_error l (N.to_nat i) = Some st ->
  exists mods d,
    get_modified_slots area (w_encounter g) (w_lead g) (w_game g) (w_table g) = Ok mods /\
    drawn (rand_at (after (initial + i + delay) seed)) g area mods (is_rse_safari_zone area (w_game g)) d /\
    state_of g (initial + i) d st /\
    In (d_slot d) (slots_of area (w_encounter g)) /\
    g_stats st = code_stats (d_pid d) (d_level d) (d_ivs d) (d_info d).
Proof. exact generate_states. Qed.
Print Assumptions C50_states_are_drawn.
Theorem C50_states_are_coherent : forall fuel junk g seed delay initial max area l,
  length junk = 6%nat -> setting_ok g area ->
  seed < 2^32 -> initial + delay < 2^32 -> initial + max <= 2^32 ->
  wild_generate fuel junk g seed delay initial max area = Ok l ->
  Forall (fun st =>
    exists slot info, In slot (slots_of area (w_encounter g)) /\
      nth_error (w_table g) (N.to_nat (g_species st)) = Some info /\
      s_species slot = g_species st + 2048 * g_form st /\
      s_min_level slot <= g_level st <= s_max_level slot /\
      g_pid st < 2^32 /\
      g_nature st = g_pid st mod 25 /\ g_ability st = g_pid st mod 2 /\
      g_ability_index st = (if g_ability st =? 0 then pi_ability_1 info else pi_ability_2 info) /\
      g_gender st = gender_code (gender_of (g_pid st) (pi_gender_ratio info)) /\
      g_shiny st = shiny_code (shiny_of (g_pid st) (w_tsv g)) /\
      (g_species st = 201 -> unown_letter (g_pid st) = g_form st) /\
      length (g_ivs st) = 6%nat /\ Forall (fun v => v < 32) (g_ivs st) /\
      characteristic_is (g_pid st) (g_ivs st) (g_characteristic st) /\
      g_hidden_power st = hidden_power_type (g_ivs st) /\
      g_hidden_power_strength st = AInt (hidden_power_power (g_ivs st))) l.
Proof. exact generate_coherent. Qed.
Print Assumptions C50_states_are_coherent.
(** What a generator is built with: a lead counts only in Emerald, the trainer's ids by their xor,
    and the personal records are those of the game. *)
Theorem C50_constructor : forall t method encounter lead game tid sid,
  method < 256 -> encounter < 256 -> lead < 256 -> game < 256 -> tid < 65536 -> sid < 65536 ->
  let g := wild_new t method encounter lead game tid sid in
  w_method g = method /\ w_encounter g = encounter /\ w_game g = game /\
  w_lead g = (if N.testbit game 2 then lead else 255) /\
  w_tsv g = N.lxor tid sid /\ w_table g = records_of t game.
Proof. exact wild_new_spec. Qed.
Print Assumptions C50_constructor.
Theorem C50_safari : forall area game,
  is_rse_safari_zone area game = true <-> In (a_location area) (safari_places game).
Proof. exact safari_spec. Qed.
Print Assumptions C50_safari.
(** So a generated state is shiny by the trainer's two ids and the two halves of its PID. *)
Theorem C50_shiny_for_the_trainer : forall fuel junk t method encounter lead game tid sid seed delay initial max area l,
  let g := wild_new t method encounter lead game tid sid in
  tid < 65536 -> sid < 65536 -> length junk = 6%nat -> setting_ok g area ->
  seed < 2^32 -> initial + delay < 2^32 -> initial + max <= 2^32 ->
  wild_generate fuel junk g seed delay initial max area = Ok l ->
  Forall (fun st =>
    let d := N.lxor (N.lxor tid sid) (N.lxor (g_pid st / 65536) (g_pid st mod 65536)) in
    g_shiny st = if d =? 0 then 2 else if d <? 8 then 1 else 0) l.
Proof.
  intros fuel junk t method encounter lead game tid sid seed delay initial max area l g Ht Hs Hj So H1 H2 H3 H4.
  pose proof (generate_coherent fuel junk g seed delay initial max area l Hj So H1 H2 H3 H4) as F.
  eapply Forall_impl; [|exact F]. intros st (slot & info & _ & _ & _ & _ & _ & _ & _ & _ & _ & E & _).
  rewrite E. unfold shiny_of. change (w_tsv g) with (w16 (N.lxor tid sid)). rewrite (lxor_16 tid sid Ht Hs).
  cbv zeta. now destruct (_ =? 0); [|destruct (_ <? 8)].
Qed.
Print Assumptions C50_shiny_for_the_trainer.
(** Advance 12 of the run above is an Unown, the letter F. *)
Example C50_case :
  setting_ok (ex_gen 3 Encounter_GRASS Game_EMERALD) ex_area /\
  rmap (map (fun st => (g_species st, g_form st, g_level st, g_nature st, g_ivs st)))
    (wild_generate 2000 junk (ex_gen 3 Encounter_GRASS Game_EMERALD) 7 3 12 1 ex_area)
  = Ok [(201, 5, 3, 12, [19; 10; 2; 2; 0; 29])].
Proof. split; [apply ex_setting|now vm_compute]. Qed.

(** C51. Without Cute Charm every search ends: [generate] returns, and no PID search has
    more than 2^31 rejections. *)
Theorem C51_search_ends_partial : forall fuel junk g seed delay initial max area,
  length junk = 6%nat -> setting_ok g area ->
  Forall (fun slot => species_of slot = 201 -> form_of slot < 28) (slots_of area (w_encounter g)) ->
  w_lead g <> Lead_CUTE_CHARM_M -> w_lead g <> Lead_CUTE_CHARM_F ->
  2^31 <= N.of_nat fuel ->
  seed < 2^32 -> initial + delay < 2^32 -> initial + max <= 2^32 ->
  exists l, wild_generate fuel junk g seed delay initial max area = Ok l.
Proof. exact generate_ends. Qed.
Print Assumptions C51_search_ends_partial.
(** Also with Cute Charm, if its condition can be met for every species of the area. *)
Theorem C51_satisfiable_ends_partial : forall fuel junk g seed delay initial max area,
  length junk = 6%nat -> setting_ok g area ->
  (forall slot info charm, In slot (slots_of area (w_encounter g)) ->
     nth_error (w_table g) (N.to_nat (species_of slot)) = Some info ->
     (is_cute_charm g = false -> charm = false) ->
     satisfiable (w_lead g) (pi_gender_ratio info) (species_of slot) (form_of slot) charm) ->
  2^31 <= N.of_nat fuel ->
  seed < 2^32 -> initial + delay < 2^32 -> initial + max <= 2^32 ->
  exists l, wild_generate fuel junk g seed delay initial max area = Ok l.
Proof. exact generate_total. Qed.
Print Assumptions C51_satisfiable_ends_partial.
(** A search whose condition cannot be met goes on forever, from every seed. *)
Theorem C51_search_forever_actual : forall g info nature species form charm,
  nature < 25 -> form < 32 ->
  (charm = true -> pi_gender_ratio info = 0 \/ pi_gender_ratio info = 254 \/ pi_gender_ratio info = 255) ->
  ~ satisfiable (w_lead g) (pi_gender_ratio info) species form charm ->
  forall fuel go, pid_search fuel g info nature species form charm go = Raise OutOfFuel.
Proof. intros. now apply search_forever. Qed.
Print Assumptions C51_search_forever_actual.
(** With the male Cute Charm lead, once an all-male species and a nonzero charm are
    rolled, [generate] never returns. *)
Theorem C51_cute_charm_hangs_actual : forall fuel junk g seed delay initial max area slot info,
  length junk = 6%nat -> setting_ok g area ->
  w_lead g = Lead_CUTE_CHARM_M -> needs_check g = false ->
  seed < 2^32 -> initial + delay < 2^32 -> 0 < max ->
  let s := after (initial + delay) seed in
  nth_error (slots_of area (w_encounter g))
    (N.to_nat (slot_one_early (cumulative_of (w_encounter g)) (Z.of_N (rand_at s 1 mod 100)))) = Some slot ->
  nth_error (w_table g) (N.to_nat (species_of slot)) = Some info ->
  pi_gender_ratio info = 0 ->
  rand_at s 3 mod 3 <> 0 ->
  wild_generate fuel junk g seed delay initial max area = Raise OutOfFuel.
Proof. exact generate_hangs_slot. Qed.
Print Assumptions C51_cute_charm_hangs_actual.
Theorem C51_search_ends_refuted :
  let g := ex_gen Lead_CUTE_CHARM_M Encounter_OLD_ROD Game_EMERALD in
  forall fuel, wild_generate fuel junk g 1 0 0 1 ex_area = Raise OutOfFuel.
Proof.
  intros g fuel. apply C51_cute_charm_hangs_actual with (slot := sl 5 10 2) (info := ex_info 0 6 6);
    [reflexivity|apply ex_setting|reflexivity|reflexivity|reflexivity|reflexivity|reflexivity
    |now vm_compute|reflexivity|reflexivity|vm_compute; discriminate].
Qed.
Print Assumptions C51_search_ends_refuted.
Example C51_case : Forall (fun slot => species_of slot = 201 -> form_of slot < 28) (slots_of ex_area 0).
Proof. repeat constructor; vm_compute; try discriminate; reflexivity. Qed.

(** C52. Cute Charm has no effect at all on species with two genders. *)
Theorem C52_cute_charm_actual : forall fuel junk g seed delay initial max area,
  is_cute_charm g = true -> Forall two_genders (w_table g) ->
  wild_generate fuel junk g seed delay initial max area =
  wild_generate fuel junk (without_lead g) seed delay initial max area.
Proof. exact generate_no_charm. Qed.
Print Assumptions C52_cute_charm_actual.
(** Female Cute Charm lead, seed 14: the charm roll is nonzero and the species has both
    genders, but a female appears. *)
Theorem C52_cute_charm_refuted :
  rmap (map (fun st => (g_species st, g_gender st)))
    (wild_generate 2000 junk (ex_gen Lead_CUTE_CHARM_F Encounter_GRASS Game_EMERALD) 14 0 0 1 ex_area)
    = Ok [(3, gender_code Female)] /\
  nth_error ex_table 3 = Some (ex_info 63 13 13) /\ two_genders (ex_info 63 13 13) /\
  rand_at 14 3 mod 3 <> 0.
Proof. split; [now vm_compute|]. split; [reflexivity|]. split; [split; reflexivity|]. vm_compute. discriminate. Qed.
Print Assumptions C52_cute_charm_refuted.
Example C52_case :
  is_cute_charm (ex_gen Lead_CUTE_CHARM_F Encounter_GRASS Game_EMERALD) = true /\
  two_genders (ex_info 63 13 13).
Proof. split; [reflexivity|split; reflexivity]. Qed.
