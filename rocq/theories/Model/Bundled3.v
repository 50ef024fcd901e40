(** The data of generation 3 that come with the package, as the package loads them. *)
From Coq Require Import NArith String List.
From Verif Require Import Base.Word Model.Personal Model.PersonalLayouts Model.PersonalData3
  Model.Gen3State Model.Gen3Area Model.Gen3Wild Model.Encounter3 Model.EncounterData3.
Import ListNotations.
Open Scope string_scope.
Open Scope N_scope.

(** The attributes that generation 3 code reads from a record loaded with PersonalInfo3
    (data/personal/personal_info.py:79-105). *)
Definition decode3 (r : list N) : res personal3 :=
  let f name := int_of (get_field PersonalInfo3 r name) in
  rbind (f "hp") (fun hp =>
  rbind (f "attack") (fun attack =>
  rbind (f "defense") (fun defense =>
  rbind (f "speed") (fun speed =>
  rbind (f "special_attack") (fun special_attack =>
  rbind (f "special_defense") (fun special_defense =>
  rbind (f "type_1") (fun type_1 =>
  rbind (f "type_2") (fun type_2 =>
  rbind (f "gender_ratio") (fun gender_ratio =>
  rbind (f "ability_1") (fun ability_1 =>
  rbind (f "ability_2") (fun ability_2 =>
  Ok {| pi_hp := hp; pi_attack := attack; pi_defense := defense; pi_speed := speed;
        pi_special_attack := special_attack; pi_special_defense := special_defense;
        pi_type_1 := type_1; pi_type_2 := type_2; pi_gender_ratio := gender_ratio;
        pi_ability_1 := ability_1; pi_ability_2 := ability_2 |}))))))))))).
Fixpoint decode_all (l : list (list N)) : res (list personal3) :=
  match l with
  | [] => Ok []
  | r :: l' => rbind (decode3 r) (fun i => rmap (cons i) (decode_all l'))
  end.
Definition decoded (bytes : list N) : list personal3 :=
  match decode_all (load_personal PersonalInfo3 bytes) with Ok l => l | Raise _ => [] end.

(** data/personal/__init__.py:44-47. *)
Definition bundled_tables : tables3 :=
  mkTables3 (decoded personal_rs_bytes) (decoded personal_e_bytes)
            (decoded personal_fr_bytes) (decoded personal_lg_bytes).

(** data/encounter/__init__.py:274-296: MAP_NAMES_GEN3 and ENCOUNTER_INFORMATION_GEN3. *)
Definition bundled (game : N) : res (list string * list area3) :=
  load_encounter_3 species_names bundled_files game.
