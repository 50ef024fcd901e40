(** What the bundled personal tables should satisfy. *)
From Coq Require Import NArith String List.
From Verif Require Import Base.Word Model.Personal Model.BundledPersonal.
Import ListNotations.
Open Scope string_scope.
Open Scope N_scope.

(** [table[k].name == n]. *)
Definition reads (t : table_name) (k : N) (name : string) (n : N) : Prop := personal_attr t k name = Ok (VInt n).

(** The tables with their numbers of records: species 0 to the last of the games, then forms. *)
Definition record_counts : list (table_name * N) :=
  [(T_RS, 387); (T_E, 387); (T_FR, 387); (T_LG, 387); (T_DP, 501); (T_PT, 508); (T_BW, 668); (T_B2W2, 709);
   (T_XY, 799); (T_AO, 826); (T_SM, 961); (T_UU, 976); (T_SWSH, 1192); (T_BDSP, 560); (T_LA, 1276)].
(** The number of the first record that belongs to a form, in the games with such records. *)
Definition first_forms : list (table_name * N) :=
  [(T_DP, 496); (T_PT, 496); (T_BW, 650); (T_B2W2, 685); (T_XY, 722); (T_AO, 722); (T_SM, 803); (T_UU, 808);
   (T_SWSH, 901); (T_BDSP, 494); (T_LA, 906)].

(** The shares of females the games know, and the numbers of the growth curves. *)
Definition gender_ratios : list N := [0; 31; 63; 127; 191; 225; 254; 255].
Definition stats : list string := ["hp"; "attack"; "defense"; "speed"; "special_attack"; "special_defense"].
Definition numbers : list string :=
  stats ++ ["type_1"; "type_2"; "gender_ratio"; "exp_growth"; "egg_group_1"; "egg_group_2"; "ability_1"; "ability_2"].

(** The number of the record for a form of a species: the first form and the forms without
    records of their own have that of the species. *)
Inductive form_record (t : table_name) (species form : N) : N -> Prop :=
| form_0 : form = 0 -> form_record t species form species
| form_same count : reads t species "form_count" count -> form < count ->
    reads t species "form_stats_index" 0 -> form_record t species form species
| form_own count i : form <> 0 -> reads t species "form_count" count -> form < count ->
    reads t species "form_stats_index" i -> i <> 0 -> form_record t species form (i + form - 1).
