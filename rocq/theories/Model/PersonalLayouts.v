(** Generated by tools/gen_personal.py from
    numba_pokemon_prngs/data/personal/personal_info.py: the field lists of the
    [dtype_dataclass] records, and the sizes asserted below them. *)
From Coq Require Import String List.
From Verif Require Import Model.Personal.
Import ListNotations.
Open Scope string_scope.

(** personal_info.py:24-43; the assertion is line 47. *)
Definition PersonalInfo1 : layout :=
  [("gender_ratio", U8); ("hp", U8); ("attack", U8); ("defense", U8); ("speed", U8);
   ("special", U8); ("type_1", U8); ("type_2", U8); ("catch_rate", U8); ("base_exp", U8);
   ("_padding", (Bytes 6)); ("move_1", U8); ("move_2", U8); ("move_3", U8); ("move_4", U8);
   ("exp_growth", U8); ("tm_hm", (Bytes 7))].
Definition PersonalInfo1_size : nat := 28.

(** personal_info.py:51-72; the assertion is line 76. *)
Definition PersonalInfo2 : layout :=
  [("dex_id", U8); ("hp", U8); ("attack", U8); ("defense", U8); ("speed", U8);
   ("special_attack", U8); ("special_defense", U8); ("type_1", U8); ("type_2", U8);
   ("catch_rate", U8); ("base_exp", U8); ("item_1", U8); ("item_2", U8);
   ("gender_ratio", U8); ("hatch_cycles", U8); ("_padding", (Bytes 7)); ("exp_growth", U8);
   ("egg_group", U8); ("tm_hm", (Bytes 8))].
Definition PersonalInfo2_size : nat := 32.

(** personal_info.py:80-105; the assertion is line 109. *)
Definition PersonalInfo3 : layout :=
  [("hp", U8); ("attack", U8); ("defense", U8); ("speed", U8); ("special_attack", U8);
   ("special_defense", U8); ("type_1", U8); ("type_2", U8); ("catch_rate", U8);
   ("base_exp", U8); ("ev_yield", U16); ("item_1", U16); ("item_2", U16);
   ("gender_ratio", U8); ("hatch_cycles", U8); ("base_friendship", U8); ("exp_growth", U8);
   ("egg_group_1", U8); ("egg_group_2", U8); ("ability_1", U8); ("ability_2", U8);
   ("escape_rate", U8); ("misc", (Bytes 3))].
Definition PersonalInfo3_size : nat := 28.

(** personal_info.py:113-142; the assertion is line 146. *)
Definition PersonalInfo4 : layout :=
  [("hp", U8); ("attack", U8); ("defense", U8); ("speed", U8); ("special_attack", U8);
   ("special_defense", U8); ("type_1", U8); ("type_2", U8); ("catch_rate", U8);
   ("base_exp", U8); ("ev_yield", U16); ("item_1", U16); ("item_2", U16);
   ("gender_ratio", U8); ("hatch_cycles", U8); ("base_friendship", U8); ("exp_growth", U8);
   ("egg_group_1", U8); ("egg_group_2", U8); ("ability_1", U8); ("ability_2", U8);
   ("escape_rate", U8); ("misc", (Bytes 3)); ("tm_hm", (Bytes 13)); ("form_count", U8);
   ("form_stats_index", U16)].
Definition PersonalInfo4_size : nat := 44.

(** personal_info.py:150-185; the assertion is line 189. *)
Definition PersonalInfo5BW : layout :=
  [("hp", U8); ("attack", U8); ("defense", U8); ("speed", U8); ("special_attack", U8);
   ("special_defense", U8); ("type_1", U8); ("type_2", U8); ("catch_rate", U8);
   ("evo_stage", U8); ("ev_yield", U16); ("item_1", U16); ("item_2", U16); ("item_3", U16);
   ("gender_ratio", U8); ("hatch_cycles", U8); ("base_friendship", U8); ("exp_growth", U8);
   ("egg_group_1", U8); ("egg_group_2", U8); ("ability_1", U8); ("ability_2", U8);
   ("ability_h", U8); ("escape_rate", U8); ("form_stats_index", U16); ("form_sprite", U16);
   ("form_count", U8); ("misc", U8); ("base_exp", U16); ("height", U16); ("weight", U16);
   ("tm_hm", (Bytes 16)); ("type_tutors", (Bytes 4))].
Definition PersonalInfo5BW_size : nat := 60.

(** personal_info.py:193-229; the assertion is line 233. *)
Definition PersonalInfo5B2W2 : layout :=
  [("hp", U8); ("attack", U8); ("defense", U8); ("speed", U8); ("special_attack", U8);
   ("special_defense", U8); ("type_1", U8); ("type_2", U8); ("catch_rate", U8);
   ("evo_stage", U8); ("ev_yield", U16); ("item_1", U16); ("item_2", U16); ("item_3", U16);
   ("gender_ratio", U8); ("hatch_cycles", U8); ("base_friendship", U8); ("exp_growth", U8);
   ("egg_group_1", U8); ("egg_group_2", U8); ("ability_1", U8); ("ability_2", U8);
   ("ability_h", U8); ("escape_rate", U8); ("form_stats_index", U16); ("form_sprite", U16);
   ("form_count", U8); ("misc", U8); ("base_exp", U16); ("height", U16); ("weight", U16);
   ("tm_hm", (Bytes 16)); ("type_tutors", (Bytes 4)); ("specific_tutors", (Bytes 16))].
Definition PersonalInfo5B2W2_size : nat := 76.

(** personal_info.py:237-272; the assertion is line 276. *)
Definition PersonalInfo6XY : layout :=
  [("hp", U8); ("attack", U8); ("defense", U8); ("speed", U8); ("special_attack", U8);
   ("special_defense", U8); ("type_1", U8); ("type_2", U8); ("catch_rate", U8);
   ("evo_stage", U8); ("ev_yield", U16); ("item_1", U16); ("item_2", U16); ("item_3", U16);
   ("gender_ratio", U8); ("hatch_cycles", U8); ("base_friendship", U8); ("exp_growth", U8);
   ("egg_group_1", U8); ("egg_group_2", U8); ("ability_1", U8); ("ability_2", U8);
   ("ability_h", U8); ("escape_rate", U8); ("form_stats_index", U16); ("form_sprite", U16);
   ("form_count", U8); ("misc", U8); ("base_exp", U16); ("height", U16); ("weight", U16);
   ("tm_hm", (Bytes 16)); ("type_tutors", (Bytes 8))].
Definition PersonalInfo6XY_size : nat := 64.

(** personal_info.py:280-316; the assertion is line 320. *)
Definition PersonalInfo6AO : layout :=
  [("hp", U8); ("attack", U8); ("defense", U8); ("speed", U8); ("special_attack", U8);
   ("special_defense", U8); ("type_1", U8); ("type_2", U8); ("catch_rate", U8);
   ("evo_stage", U8); ("ev_yield", U16); ("item_1", U16); ("item_2", U16); ("item_3", U16);
   ("gender_ratio", U8); ("hatch_cycles", U8); ("base_friendship", U8); ("exp_growth", U8);
   ("egg_group_1", U8); ("egg_group_2", U8); ("ability_1", U8); ("ability_2", U8);
   ("ability_h", U8); ("escape_rate", U8); ("form_stats_index", U16); ("form_sprite", U16);
   ("form_count", U8); ("misc", U8); ("base_exp", U16); ("height", U16); ("weight", U16);
   ("tm_hm", (Bytes 16)); ("type_tutors", (Bytes 8)); ("specific_tutors", (Bytes 16))].
Definition PersonalInfo6AO_size : nat := 80.

(** personal_info.py:324-365; the assertion is line 369. *)
Definition PersonalInfo7 : layout :=
  [("hp", U8); ("attack", U8); ("defense", U8); ("speed", U8); ("special_attack", U8);
   ("special_defense", U8); ("type_1", U8); ("type_2", U8); ("catch_rate", U8);
   ("evo_stage", U8); ("ev_yield", U16); ("item_1", U16); ("item_2", U16); ("item_3", U16);
   ("gender_ratio", U8); ("hatch_cycles", U8); ("base_friendship", U8); ("exp_growth", U8);
   ("egg_group_1", U8); ("egg_group_2", U8); ("ability_1", U8); ("ability_2", U8);
   ("ability_h", U8); ("escape_rate", U8); ("form_stats_index", U16); ("form_sprite", U16);
   ("form_count", U8); ("misc", U8); ("base_exp", U16); ("height", U16); ("weight", U16);
   ("tm", (Bytes 16)); ("type_tutors", (Bytes 4)); ("specific_tutors", (Bytes 16));
   ("special_z_item", U16); ("special_z_base_move", U16); ("special_z_move", U16);
   ("local_variant", U8); ("_padding", (Bytes 1))].
Definition PersonalInfo7_size : nat := 84.

(** personal_info.py:373-414; the assertion is line 418. *)
Definition PersonalInfo7GG : layout :=
  [("hp", U8); ("attack", U8); ("defense", U8); ("speed", U8); ("special_attack", U8);
   ("special_defense", U8); ("type_1", U8); ("type_2", U8); ("catch_rate", U8);
   ("evo_stage", U8); ("ev_yield", U16); ("item_1", U16); ("item_2", U16); ("item_3", U16);
   ("gender_ratio", U8); ("hatch_cycles", U8); ("base_friendship", U8); ("exp_growth", U8);
   ("egg_group_1", U8); ("egg_group_2", U8); ("ability_1", U8); ("ability_2", U8);
   ("ability_h", U8); ("escape_rate", U8); ("form_stats_index", U16); ("form_sprite", U16);
   ("form_count", U8); ("misc", U8); ("base_exp", U16); ("height", U16); ("weight", U16);
   ("tm", (Bytes 32)); ("go_species", U16); ("_padding_0", (Bytes 2));
   ("special_z_item", U16); ("special_z_base_move", U16); ("special_z_move", U16);
   ("local_variant", U8); ("_padding_1", (Bytes 1))].
Definition PersonalInfo7GG_size : nat := 84.

(** personal_info.py:422-467; the assertion is line 471. *)
Definition PersonalInfo8SWSH : layout :=
  [("hp", U8); ("attack", U8); ("defense", U8); ("speed", U8); ("special_attack", U8);
   ("special_defense", U8); ("type_1", U8); ("type_2", U8); ("catch_rate", U8);
   ("evo_stage", U8); ("ev_yield", U16); ("item_1", U16); ("item_2", U16); ("item_3", U16);
   ("gender_ratio", U8); ("hatch_cycles", U8); ("base_friendship", U8); ("exp_growth", U8);
   ("egg_group_1", U8); ("egg_group_2", U8); ("ability_1", U16); ("ability_2", U16);
   ("ability_h", U16); ("form_stats_index", U16); ("form_count", U8); ("misc", U8);
   ("base_exp", U16); ("height", U16); ("weight", U16); ("tm", (Bytes 16));
   ("type_tutors", (Bytes 4)); ("tr", (Bytes 16)); ("species", U16);
   ("_padding_0", (Bytes 8)); ("hatch_species", U16); ("local_form_index", U16);
   ("regional_flags", U16); ("pokedex_index", U16); ("regional_form_index", U16);
   ("_padding_1", (Bytes 72)); ("armor_tutor", (Bytes 4)); ("armor_dex_index", U16);
   ("crown_dex_index", U16)].
Definition PersonalInfo8SWSH_size : nat := 176.

(** personal_info.py:475-512; the assertion is line 516. *)
Definition PersonalInfo8BDSP : layout :=
  [("hp", U8); ("attack", U8); ("defense", U8); ("speed", U8); ("special_attack", U8);
   ("special_defense", U8); ("type_1", U8); ("type_2", U8); ("catch_rate", U8);
   ("evo_stage", U8); ("ev_yield", U16); ("item_1", U16); ("item_2", U16); ("item_3", U16);
   ("gender_ratio", U8); ("hatch_cycles", U8); ("base_friendship", U8); ("exp_growth", U8);
   ("egg_group_1", U8); ("egg_group_2", U8); ("ability_1", U16); ("ability_2", U16);
   ("ability_h", U16); ("form_stats_index", U16); ("form_count", U8); ("misc", U8);
   ("base_exp", U16); ("height", U16); ("weight", U16); ("tm", (Bytes 16));
   ("type_tutors", (Bytes 4)); ("species", U16); ("hatch_species", U16);
   ("hatch_form_index", U16); ("pokedex_index", U16)].
Definition PersonalInfo8BDSP_size : nat := 68.

(** personal_info.py:520-565; the assertion is line 569. *)
Definition PersonalInfo8LA : layout :=
  [("hp", U8); ("attack", U8); ("defense", U8); ("speed", U8); ("special_attack", U8);
   ("special_defense", U8); ("type_1", U8); ("type_2", U8); ("catch_rate", U8);
   ("evo_stage", U8); ("ev_yield", U16); ("item_1", U16); ("item_2", U16); ("item_3", U16);
   ("gender_ratio", U8); ("hatch_cycles", U8); ("base_friendship", U8); ("exp_growth", U8);
   ("egg_group_1", U8); ("egg_group_2", U8); ("ability_1", U16); ("ability_2", U16);
   ("ability_h", U16); ("form_stats_index", U16); ("form_count", U8); ("misc", U8);
   ("base_exp", U16); ("height", U16); ("weight", U16); ("_padding_0", (Bytes 46));
   ("hatch_species", U16); ("hatch_form_index", U16); ("regional_flags", U16);
   ("species", U16); ("form", U16); ("dex_index_hisui", U16);
   ("dex_index_hisui_local_1", U16); ("dex_index_hisui_local_2", U16);
   ("dex_index_hisui_local_3", U16); ("dex_index_hisui_local_4", U16);
   ("dex_index_hisui_local_5", U16); ("_padding_1", (Bytes 60)); ("move_shop", (Bytes 8))].
Definition PersonalInfo8LA_size : nat := 176.

(** personal_info.py:573-608; the assertion is line 612. *)
Definition PersonalInfo9SV : layout :=
  [("hp", U8); ("attack", U8); ("defense", U8); ("speed", U8); ("special_attack", U8);
   ("special_defense", U8); ("type_1", U8); ("type_2", U8); ("catch_rate", U8);
   ("evo_stage", U8); ("ev_yield", U16); ("gender_ratio", U8); ("hatch_cycles", U8);
   ("base_friendship", U8); ("exp_growth", U8); ("egg_group_1", U8); ("egg_group_2", U8);
   ("ability_1", U16); ("ability_2", U16); ("ability_h", U16); ("form_stats_index", U16);
   ("form_count", U8); ("misc", U8); ("is_present_in_game", U8); ("dex_group", U8);
   ("dex_index", U16); ("height", U16); ("weight", U16); ("hatch_species", U16);
   ("local_form_index", U16); ("regional_flags", U16); ("regional_form_index", U16);
   ("tm", (Bytes 24))].
Definition PersonalInfo9SV_size : nat := 68.

(** All record types with their asserted sizes. *)
Definition record_types : list (layout * nat) :=
  [(PersonalInfo1, PersonalInfo1_size);
   (PersonalInfo2, PersonalInfo2_size);
   (PersonalInfo3, PersonalInfo3_size);
   (PersonalInfo4, PersonalInfo4_size);
   (PersonalInfo5BW, PersonalInfo5BW_size);
   (PersonalInfo5B2W2, PersonalInfo5B2W2_size);
   (PersonalInfo6XY, PersonalInfo6XY_size);
   (PersonalInfo6AO, PersonalInfo6AO_size);
   (PersonalInfo7, PersonalInfo7_size);
   (PersonalInfo7GG, PersonalInfo7GG_size);
   (PersonalInfo8SWSH, PersonalInfo8SWSH_size);
   (PersonalInfo8BDSP, PersonalInfo8BDSP_size);
   (PersonalInfo8LA, PersonalInfo8LA_size);
   (PersonalInfo9SV, PersonalInfo9SV_size)].
