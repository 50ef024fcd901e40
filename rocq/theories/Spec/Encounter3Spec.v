(** What the loaded generation 3 areas are, from the contents of the JSON files. *)
From Coq Require Import NArith Ascii String List Bool.
From Verif Require Import Model.Gen3Area Model.Encounter3.
Import ListNotations.
Open Scope list_scope.
Open Scope N_scope.

(** A text occurs in a label. *)
Definition occurs (word label : string) : Prop := exists a b, label = (a ++ word ++ b)%string.

(** The areas of a game in its file. *)
Definition names_game (game : N) (label : string) : Prop :=
  (game = Game_RUBY /\ occurs "Ruby" label) \/
  (game = Game_SAPPHIRE /\ occurs "Sapphire" label) \/
  game = Game_EMERALD \/
  (game = Game_FIRE_RED /\ occurs "FireRed" label) \/
  (game = Game_LEAF_GREEN /\ occurs "LeafGreen" label).
Definition file_of (f : files) (game : N) : list encounter :=
  if game =? Game_EMERALD then f_e f
  else if (game =? Game_RUBY) || (game =? Game_SAPPHIRE) then f_rs f
  else f_frlg f.
Definition gen3_games : list N :=
  [Game_RUBY; Game_SAPPHIRE; Game_EMERALD; Game_FIRE_RED; Game_LEAF_GREEN].

(** The second and later versions of Altering Cave, and unused areas. *)
Definition two_to_nine (c : ascii) : Prop := In c ["2"; "3"; "4"; "5"; "6"; "7"; "8"; "9"]%char.
Definition left_empty (label : string) : Prop :=
  (exists d r, two_to_nine d /\ label = ("gAlteringCave" ++ String d r)%string) \/
  (exists a d r, two_to_nine d /\ label = (a ++ "AlteringCave_" ++ String d r)%string) \/
  occurs "Unused" label.

(** The number of a species: its first position in the list of names. *)
Definition species_number (names : list string) (name : string) (n : nat) : Prop :=
  nth_error names n = Some name /\ forall k, (k < n)%nat -> nth_error names k <> Some name.

(** The loaded slot of an entry, for a form. *)
Definition slot_is (names : list string) (form : N) (m : mon) (s : slot3) : Prop :=
  s_min_level s = m_min m /\ s_max_level s = m_max m /\
  exists n, species_number names (m_species m) n /\ s_species s = N.of_nat n + 2048 * form.

(** [slots] holds the entries from number [from] on, then empty slots. *)
Definition slots_are (names : list string) (form : nat -> N) (l : list mon) (from : nat)
    (slots : list slot3) : Prop :=
  forall i s, nth_error slots i = Some s ->
    match nth_error l (from + i) with
    | Some m => slot_is names (form (from + i)%nat) m s
    | None => s = mkSlot3 0 0 0
    end.

Definition listed (o : option mons) : list mon := match o with Some g => m_list g | None => [] end.
Definition rate (o : option mons) : N := match o with Some g => m_rate g | None => 0 end.

(** The Unown letters of the twelve slots of the chambers of Tanoby Ruins. *)
Definition alphabet : string := "ABCDEFGHIJKLMNOPQRSTUVWXYZ!?".
Definition chambers : list (string * string) :=
  [("MONEAN", "AAAAAAAAAAA?"); ("LIPTOO", "CCCDDDHHHUUO"); ("WEEPTH", "NNNNSSSSIIEE");
   ("DILFORD", "PPLLJJRRRQQQ"); ("SCUFIB", "YYTTGGGFFFKK"); ("RIXY", "VVVWWWXXMMBB");
   ("VIAPOIS", "ZZZZZZZZZZZ!")]%string.
(** The same, with the names as MAP_NAMES has them. *)
Definition chamber_names : list (string * string) :=
  [("Monean", "AAAAAAAAAAA?"); ("Liptoo", "CCCDDDHHHUUO"); ("Weepth", "NNNNSSSSIIEE");
   ("Dilford", "PPLLJJRRRQQQ"); ("Scufib", "YYTTGGGFFFKK"); ("Rixy", "VVVWWWXXMMBB");
   ("Viapois", "ZZZZZZZZZZZ!")]%string.
Fixpoint position (c : ascii) (s : string) : N :=
  match s with
  | EmptyString => 0
  | String d s' => if Ascii.eqb c d then 0 else 1 + position c s'
  end.
(** The Unown letter of a slot of a map; 0 for other maps. *)
Definition letter (map_name : string) (i : nat) : N :=
  match find (fun e => String.eqb ("MAP_SEVEN_ISLAND_TANOBY_RUINS_" ++ fst e ++ "_CHAMBER") map_name)
          chambers with
  | Some e => match String.get i (snd e) with Some c => position c alphabet | None => 0 end
  | None => 0
  end.

Definition area_is (names : list string) (number : N) (e : encounter) (a : area3) : Prop :=
  a_location a = number /\
  a_land_rate a = rate (e_land e) /\ a_water_rate a = rate (e_water e) /\
  a_rock_rate a = rate (e_rock e) /\ a_fish_rate a = rate (e_fish e) /\
  length (a_land a) = 12%nat /\ slots_are names (letter (e_map e)) (listed (e_land e)) 0 (a_land a) /\
  length (a_water a) = 5%nat /\ slots_are names (fun _ => 0) (listed (e_water e)) 0 (a_water a) /\
  length (a_rock a) = 5%nat /\ slots_are names (fun _ => 0) (listed (e_rock e)) 0 (a_rock a) /\
  length (a_fish_old a) = 2%nat /\ slots_are names (fun _ => 0) (listed (e_fish e)) 0 (a_fish_old a) /\
  length (a_fish_good a) = 3%nat /\ slots_are names (fun _ => 0) (listed (e_fish e)) 2 (a_fish_good a) /\
  length (a_fish_super a) = 5%nat /\ slots_are names (fun _ => 0) (listed (e_fish e)) 5 (a_fish_super a).

(** An area without anything. *)
Definition empty_area (a : area3) : Prop :=
  area_is [] 0 (mkEnc "" "" None None None None) a.

(** The schema: numbers fit their fields, species are known, lists are not too long. *)
Definition mon_valid (names : list string) (m : mon) : Prop :=
  m_min m < 256 /\ m_max m < 256 /\ In (m_species m) names.
Definition mons_valid (names : list string) (count : nat) (o : option mons) : Prop :=
  rate o < 256 /\ (length (listed o) <= count)%nat /\ Forall (mon_valid names) (listed o).
Definition enc_valid (names : list string) (e : encounter) : Prop :=
  mons_valid names 12 (e_land e) /\ mons_valid names 5 (e_water e) /\
  mons_valid names 5 (e_rock e) /\ mons_valid names 10 (e_fish e).

(** * Entries of an encounter type *)

(** The list of the JSON element for an encounter type, the first entry that belongs to
    it and the number of entries, and the forms. *)
Definition entry_list (e : encounter) (t : N) : list mon :=
  if (t =? Encounter_OLD_ROD) || (t =? Encounter_GOOD_ROD) || (t =? Encounter_SUPER_ROD)
  then listed (e_fish e)
  else if t =? Encounter_ROCK_SMASH then listed (e_rock e)
  else if t =? Encounter_SURFING then listed (e_water e)
  else listed (e_land e).
Definition entry_range (t : N) : nat * nat :=
  if t =? Encounter_OLD_ROD then (0, 2)%nat
  else if t =? Encounter_GOOD_ROD then (2, 3)%nat
  else if t =? Encounter_SUPER_ROD then (5, 5)%nat
  else if t =? Encounter_ROCK_SMASH then (0, 5)%nat
  else if t =? Encounter_SURFING then (0, 5)%nat
  else (0, 12)%nat.
Definition entry_form (e : encounter) (t : N) (k : nat) : N :=
  if (t =? Encounter_OLD_ROD) || (t =? Encounter_GOOD_ROD) || (t =? Encounter_SUPER_ROD) ||
     (t =? Encounter_ROCK_SMASH) || (t =? Encounter_SURFING)
  then 0 else letter (e_map e) k.
