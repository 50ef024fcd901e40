(** Specification of packed little-endian records, and of the table of each game. *)
From Coq Require Import NArith String List.
From Verif Require Import Model.Personal Model.PersonalLayouts.
Import ListNotations.
Open Scope N_scope.

(** The values a field of a type can hold, and their bytes. *)
Definition fits (d : dtype) (v : value) : Prop :=
  match d, v with
  | U8, VInt n => n < 256
  | U16, VInt n => n < 65536
  | Bytes k, VBytes l => length l = k /\ Forall (fun b => b < 256) l
  | _, _ => False
  end.
Definition encode (d : dtype) (v : value) : list N :=
  match d, v with
  | U8, VInt n => [n]
  | U16, VInt n => [n mod 256; n / 256]
  | _, VBytes l => l
  | _, _ => []
  end.

(** The bytes of a record with the given values, field after field. *)
Fixpoint encode_record (l : layout) (vs : list value) : list N :=
  match l, vs with
  | (_, d) :: l', v :: vs' => encode d v ++ encode_record l' vs'
  | _, _ => []
  end.
Definition fits_record (l : layout) (vs : list value) : Prop :=
  Forall2 (fun f v => fits (snd f) v) l vs.

(** Bytes of a field, of all fields, and the first byte of field [i]: after the fields before it. *)
Definition width (d : dtype) : nat := match d with U8 => 1 | U16 => 2 | Bytes k => k end.
Fixpoint size_of (l : layout) : nat := match l with [] => 0 | (_, d) :: l' => width d + size_of l' end.
Definition start (l : layout) (i : nat) : nat := size_of (firstn i l).

(** Two records agree on the bytes from [a] up to [b]. *)
Definition same_bytes (r s : list N) (a b : nat) : Prop :=
  forall k, (a <= k < b)%nat -> nth_error r k = nth_error s k.

(** The layouts of the games' own files: name, first byte and type of the fields that are numbers
    up to the abilities (and the species sizes where the file has them at a common place). *)
Local Open Scope string_scope. Local Open Scope list_scope. Local Open Scope N_scope.
Definition common : list (string * nat * dtype) :=
  [("hp", 0, U8); ("attack", 1, U8); ("defense", 2, U8); ("speed", 3, U8); ("special_attack", 4, U8);
   ("special_defense", 5, U8); ("type_1", 6, U8); ("type_2", 7, U8); ("catch_rate", 8, U8);
   ("ev_yield", 10, U16)]%nat.
(** From [o] on: the gender ratio and what follows it up to the egg groups. *)
Definition breeding (o : nat) : list (string * nat * dtype) :=
  [("gender_ratio", o, U8); ("hatch_cycles", o + 1, U8); ("base_friendship", o + 2, U8);
   ("exp_growth", o + 3, U8); ("egg_group_1", o + 4, U8); ("egg_group_2", o + 5, U8)]%nat.
Definition gen34 := common ++ [("base_exp", 9, U8); ("item_1", 12, U16); ("item_2", 14, U16)]%nat
  ++ breeding 16 ++ [("ability_1", 22, U8); ("ability_2", 23, U8)]%nat.
Definition gen5_to_8 := common ++ [("evo_stage", 9, U8); ("item_1", 12, U16); ("item_2", 14, U16); ("item_3", 16, U16)]%nat
  ++ breeding 18 ++ [("base_exp", 34, U16); ("height", 36, U16); ("weight", 38, U16)]%nat.
Definition gen567 := gen5_to_8 ++ [("ability_1", 24, U8); ("ability_2", 25, U8); ("ability_h", 26, U8)]%nat.
Definition gen8 := gen5_to_8 ++ [("ability_1", 24, U16); ("ability_2", 26, U16); ("ability_h", 28, U16)]%nat.
Definition gen9 := common ++ [("evo_stage", 9, U8)]%nat ++ breeding 12
  ++ [("ability_1", 18, U16); ("ability_2", 20, U16); ("ability_h", 22, U16)]%nat.
Definition positions : list (layout * list (string * nat * dtype)) :=
  [(PersonalInfo1, [("hp", 1, U8); ("attack", 2, U8); ("defense", 3, U8); ("speed", 4, U8); ("special", 5, U8);
                    ("type_1", 6, U8); ("type_2", 7, U8); ("catch_rate", 8, U8); ("base_exp", 9, U8);
                    ("move_1", 16, U8); ("exp_growth", 20, U8)]%nat);
   (PersonalInfo2, [("dex_id", 0, U8); ("hp", 1, U8); ("attack", 2, U8); ("defense", 3, U8); ("speed", 4, U8);
                    ("special_attack", 5, U8); ("special_defense", 6, U8); ("type_1", 7, U8); ("type_2", 8, U8);
                    ("catch_rate", 9, U8); ("base_exp", 10, U8); ("item_1", 11, U8); ("item_2", 12, U8);
                    ("gender_ratio", 13, U8); ("hatch_cycles", 14, U8); ("exp_growth", 22, U8)]%nat);
   (PersonalInfo3, gen34); (PersonalInfo4, gen34);
   (PersonalInfo5BW, gen567); (PersonalInfo5B2W2, gen567); (PersonalInfo6XY, gen567); (PersonalInfo6AO, gen567);
   (PersonalInfo7, gen567); (PersonalInfo7GG, gen567);
   (PersonalInfo8SWSH, gen8); (PersonalInfo8BDSP, gen8); (PersonalInfo8LA, gen8); (PersonalInfo9SV, gen9)].
(** The number a field holds in a record: its byte, or its two bytes with the low one first. *)
Definition number_at (d : dtype) (o : nat) (r : list N) : N :=
  match d with U16 => nth o r 0 + 256 * nth (o + 1) r 0 | _ => nth o r 0 end.

(** The table made for each game; HeartGold and SoulSilver have a file too. *)
Definition own_table : list (N * table_name) :=
  [(RUBY, T_RS); (SAPPHIRE, T_RS); (EMERALD, T_E); (FIRE_RED, T_FR); (LEAF_GREEN, T_LG);
   (DIAMOND, T_DP); (PEARL, T_DP); (PLATINUM, T_PT);
   (HEART_GOLD, T_HGSS); (SOUL_SILVER, T_HGSS);
   (BLACK, T_BW); (WHITE, T_BW); (BLACK2, T_B2W2); (WHITE2, T_B2W2);
   (X, T_XY); (Y, T_XY); (OMEGA_RUBY, T_AO); (ALPHA_SAPPHIRE, T_AO);
   (SUN, T_SM); (MOON, T_SM); (ULTRA_SUN, T_UU); (ULTRA_MOON, T_UU);
   (SWORD, T_SWSH); (SHIELD, T_SWSH);
   (BRILLIANT_DIAMOND, T_BDSP); (SHINING_PEARL, T_BDSP); (LEGENDS_ARCEUS, T_LA)].

(** The bit of each game whose table the code selects, in order of priority. *)
Definition table_bits : list (N * table_name) :=
  [(0, T_RS); (1, T_RS); (2, T_E); (3, T_FR); (4, T_LG); (9, T_DP); (8, T_DP);
   (12, T_BW); (13, T_BW); (14, T_B2W2); (15, T_B2W2); (16, T_XY); (17, T_XY);
   (18, T_AO); (19, T_AO); (20, T_SM); (21, T_SM); (22, T_UU); (23, T_UU);
   (24, T_SWSH); (25, T_SWSH); (26, T_BDSP); (27, T_BDSP); (28, T_LA)].
