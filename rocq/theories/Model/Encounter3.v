(** Model of the generation 3 part of numba_pokemon_prngs/data/encounter/__init__.py:
    from the contents of the JSON files to the arrays of areas. The JSON parser and the
    text codecs are not modelled: [encounter] is one element of
    ["wild_encounter_groups"][0]["encounters"], strings are lists of bytes. *)
From Coq Require Import NArith Arith Ascii String List Bool.
From Verif Require Import Base.Word Model.Gen3Area.
Import ListNotations.
Open Scope string_scope.
Open Scope list_scope.
Open Scope N_scope.

(** The JSON objects. Levels and rates are nonnegative integers in the files. *)
Record mon := mkMon { m_min : N; m_max : N; m_species : string }.
Record mons := mkMons { m_rate : N; m_list : list mon }.
Record encounter := mkEnc {
  e_map : string; e_label : string;
  e_land : option mons; e_water : option mons; e_rock : option mons; e_fish : option mons }.

(** * Strings *)

(** [p in s] (data/encounter/__init__.py:199-205,220). *)
Fixpoint contains (p s : string) : bool :=
  String.prefix p s || match s with EmptyString => false | String _ s' => contains p s' end.

(** What follows the prefix [p] of [s]. *)
Fixpoint after_prefix (p s : string) : option string :=
  match p, s with
  | EmptyString, _ => Some s
  | String a p', String b s' => if Ascii.eqb a b then after_prefix p' s' else None
  | String _ _, EmptyString => None
  end.
Definition char_between (a b : ascii) (c : ascii) : bool :=
  (N_of_ascii a <=? N_of_ascii c) && (N_of_ascii c <=? N_of_ascii b).
Definition head_between (a b : ascii) (s : option string) : bool :=
  match s with Some (String c _) => char_between a b c | _ => false end.

(** [re.match(r"gAlteringCave[2-9]", s)], line 212. *)
Definition match_altering (s : string) : bool :=
  head_between "2" "9" (after_prefix "gAlteringCave" s).
(** [re.search(r"AlteringCave_[2-9]", s)], line 216. *)
Fixpoint search_altering (s : string) : bool :=
  head_between "2" "9" (after_prefix "AlteringCave_" s)
  || match s with EmptyString => false | String _ s' => search_altering s' end.

(** lines 212-222: the areas that are left empty. *)
Definition skipped (e : encounter) : bool :=
  match_altering (e_label e) || search_altering (e_label e) || contains "Unused" (e_label e).

(** ** clean_map_string, lines 163-185. ASCII only: [\d], [upper], [lower] and
    [IGNORECASE] also know other characters. *)

(** [s.replace("MAP_", "")]; [skip] characters of a match are still to be dropped. *)
Fixpoint remove_map (skip : nat) (s : string) : string :=
  match s with
  | EmptyString => EmptyString
  | String c s' =>
      match skip with
      | S k => remove_map k s'
      | O => if String.prefix "MAP_" s then remove_map 3 s' else String c (remove_map 0 s')
      end
  end.
(** [s.replace("_", " ")]. *)
Fixpoint underscores (s : string) : string :=
  match s with
  | EmptyString => EmptyString
  | String c s' => String (if Ascii.eqb c "_" then " " else c)%char (underscores s')
  end.
(** [s.split()]. *)
Definition is_space (c : ascii) : bool :=
  let n := N_of_ascii c in ((9 <=? n) && (n <=? 13)) || ((28 <=? n) && (n <=? 32)).
Fixpoint split (s : string) (word : string) : list string :=
  let flush := match word with EmptyString => [] | _ => [word] end in
  match s with
  | EmptyString => flush
  | String c s' => if is_space c then flush ++ split s' "" else split s' (word ++ String c "")
  end.
Definition is_digit := char_between "0" "9".
Definition upper (c : ascii) : ascii :=
  if char_between "a" "z" c then ascii_of_N (N_of_ascii c - 32) else c.
Definition lower (c : ascii) : ascii :=
  if char_between "A" "Z" c then ascii_of_N (N_of_ascii c + 32) else c.
Fixpoint map_string (f : ascii -> ascii) (s : string) : string :=
  match s with EmptyString => EmptyString | String c s' => String (f c) (map_string f s') end.
(** The digits at the start, and the rest. *)
Fixpoint digits (s : string) : string * string :=
  match s with
  | String c s' => if is_digit c then let (d, r) := digits s' in (String c d, r) else ("", s)
  | EmptyString => ("", "")
  end.
(** [re.match(word + r"(\d+)", s, re.IGNORECASE)], the group; [word] in lower case. *)
Definition numbered (word s : string) : option string :=
  match after_prefix word (map_string lower s) with
  | Some rest => match fst (digits rest) with EmptyString => None | d => Some d end
  | None => None
  end.
(** [re.match(r"(\d+)" + c, s)]. *)
Definition digits_then (c : ascii) (s : string) : bool :=
  match digits s with
  | (EmptyString, _) => false
  | (_, String d _) => Ascii.eqb c d
  | (_, EmptyString) => false
  end.
Definition capitalize (s : string) : string :=
  match s with EmptyString => EmptyString | String c s' => String (upper c) (map_string lower s') end.
Definition clean_word (s : string) : string :=
  match numbered "route" s with
  | Some d => "Route " ++ d
  | None =>
      match numbered "room" s with
      | Some d => "Room " ++ d
      | None =>
          if match s with String "B" s' => digits_then "F" s' | _ => false end then s
          else if digits_then "F" s then s
          else if digits_then "R" s then s
          else capitalize s
      end
  end%string.
Definition clean_map_string (s : string) : string :=
  String.concat " " (map clean_word (split (underscores (remove_map 0 s)) "")).

(** * Areas *)

(** [np.zeros(..., dtype=EncounterArea3.dtype)], lines 207-209. *)
Definition zero_slot := mkSlot3 0 0 0.
Definition zero_area : area3 :=
  mkArea3 0 0 (repeat zero_slot 12) 0 (repeat zero_slot 5) 0 (repeat zero_slot 5)
    0 (repeat zero_slot 2) (repeat zero_slot 3) (repeat zero_slot 5).

(** [tuple.index]: ValueError if absent. *)
Fixpoint index (l : list string) (s : string) (from : N) : res N :=
  match l with
  | [] => Raise ValueError
  | x :: l' => if String.eqb x s then Ok from else index l' s (from + 1)
  end.

(** lines 237-243: one slot. [form] is [None] where the code has no line 241-243. The
    fields of a slot are written one after another, the model replaces the slot.
    Numbers are stored modulo the size of the field; NumPy 2 raises instead. *)
Definition put_mon (names : list string) (form : res (option N)) (slots : list slot3)
    (i : nat) (m : mon) : res (list slot3) :=
  if (i <? length slots)%nat then
    rbind (index names (m_species m) 0) (fun sp =>
    rbind form (fun f =>
    let sp := w16 sp in
    let sp := match f with Some k => w16 (N.lor sp (N.shiftl k 11)) | None => sp end in
    Ok (firstn i slots ++ mkSlot3 (w8 (m_min m)) (w8 (m_max m)) sp :: skipn (S i) slots)))
  else Raise IndexError.

(** lines 236-243,246-250,253-257. *)
Fixpoint put_mons (names : list string) (forms : nat -> res (option N)) (slots : list slot3)
    (i : nat) (l : list mon) : res (list slot3) :=
  match l with
  | [] => Ok slots
  | m :: l' =>
      rbind (put_mon names (forms i) slots i m) (fun slots =>
      put_mons names forms slots (S i) l')
  end.

(** lines 260-269. *)
Fixpoint put_fish (names : list string) (rods : list slot3 * list slot3 * list slot3)
    (i : nat) (l : list mon) : res (list slot3 * list slot3 * list slot3) :=
  match l with
  | [] => Ok rods
  | m :: l' =>
      let '(old, good, super) := rods in
      rbind
        (if (i <? 2)%nat then
           rmap (fun s => (s, good, super)) (put_mon names (Ok None) old i m)
         else if (i <? 5)%nat then
           rmap (fun s => (old, s, super)) (put_mon names (Ok None) good (i - 2) m)
         else rmap (fun s => (old, good, s)) (put_mon names (Ok None) super (i - 5) m))
        (fun rods => put_fish names rods (S i) l')
  end.

(** lines 61-160, UNOWN_ENCOUNTERS. *)
Definition UNOWN_ENCOUNTERS : list (string * list N) :=
  [("MAP_SEVEN_ISLAND_TANOBY_RUINS_MONEAN_CHAMBER", [0; 0; 0; 0; 0; 0; 0; 0; 0; 0; 0; 27]);
   ("MAP_SEVEN_ISLAND_TANOBY_RUINS_LIPTOO_CHAMBER", [2; 2; 2; 3; 3; 3; 7; 7; 7; 20; 20; 14]);
   ("MAP_SEVEN_ISLAND_TANOBY_RUINS_WEEPTH_CHAMBER",
    [13; 13; 13; 13; 18; 18; 18; 18; 8; 8; 4; 4]);
   ("MAP_SEVEN_ISLAND_TANOBY_RUINS_DILFORD_CHAMBER",
    [15; 15; 11; 11; 9; 9; 17; 17; 17; 16; 16; 16]);
   ("MAP_SEVEN_ISLAND_TANOBY_RUINS_SCUFIB_CHAMBER",
    [24; 24; 19; 19; 6; 6; 6; 5; 5; 5; 10; 10]);
   ("MAP_SEVEN_ISLAND_TANOBY_RUINS_RIXY_CHAMBER",
    [21; 21; 21; 22; 22; 22; 23; 23; 12; 12; 1; 1]);
   ("MAP_SEVEN_ISLAND_TANOBY_RUINS_VIAPOIS_CHAMBER",
    [25; 25; 25; 25; 25; 25; 25; 25; 25; 25; 25; 26])].

(** lines 241-242: [UNOWN_ENCOUNTERS[encounter["map"]][i]] if the map is a key. *)
Definition unown_form (map_name : string) (i : nat) : res (option N) :=
  match find (fun e => String.eqb (fst e) map_name) UNOWN_ENCOUNTERS with
  | Some (_, forms) =>
      match nth_error forms i with Some f => Ok (Some f) | None => Raise IndexError end
  | None => Ok None
  end.

(** lines 226-269: the area of one element that is not skipped. *)
Definition fill_area (names : list string) (number : N) (e : encounter) : res area3 :=
  let slots forms count (o : option mons) :=
    match o with
    | Some g => rmap (fun s => (w8 (m_rate g), s))
                  (put_mons names forms (repeat zero_slot count) 0 (m_list g))
    | None => Ok (0, repeat zero_slot count)
    end in
  rbind (slots (unown_form (e_map e)) 12%nat (e_land e)) (fun land =>
  rbind (slots (fun _ => Ok None) 5%nat (e_water e)) (fun water =>
  rbind (slots (fun _ => Ok None) 5%nat (e_rock e)) (fun rock =>
  rbind
    (let rods := (repeat zero_slot 2, repeat zero_slot 3, repeat zero_slot 5) in
     match e_fish e with
     | Some g => rmap (fun r => (w8 (m_rate g), r)) (put_fish names rods 0 (m_list g))
     | None => Ok (0, rods)
     end) (fun fish =>
  let '(fish_rate, (old, good, super)) := fish in
  Ok (mkArea3 (w16 number) (fst land) (snd land) (fst water) (snd water) (fst rock) (snd rock)
        fish_rate old good super))))).

(** lines 211-269: the loop. *)
Fixpoint fill_areas (names : list string) (number : N) (l : list encounter)
  : res (list string * list area3) :=
  match l with
  | [] => Ok ([], [])
  | e :: l' =>
      rbind (if skipped e then Ok ("", zero_area)
             else rmap (fun a => (clean_map_string (e_map e), a)) (fill_area names number e))
        (fun x =>
      rmap (fun rest => (fst x :: fst rest, snd x :: snd rest)) (fill_areas names (number + 1) l'))
  end.

(** lines 53-59 and 191-205: the file of a game (KeyError if it has none) and the elements
    of it that are kept. [files] gives the contents of the three files. *)
Record files := mkFiles { f_rs : list encounter; f_e : list encounter; f_frlg : list encounter }.
Definition kept (f : files) (game : N) : res (list encounter) :=
  let only word := filter (fun e => contains word (e_label e)) in
  if game =? Game_RUBY then Ok (only "Ruby" (f_rs f))
  else if game =? Game_SAPPHIRE then Ok (only "Sapphire" (f_rs f))
  else if game =? Game_EMERALD then Ok (f_e f)
  else if game =? Game_FIRE_RED then Ok (only "FireRed" (f_frlg f))
  else if game =? Game_LEAF_GREEN then Ok (only "LeafGreen" (f_frlg f))
  else Raise KeyError.

(** lines 188-271, [load_encounter_3] without the cache. [names] is
    [CONSTANT_CASE_SPECIES_EN] (data/__init__.py:9-16). *)
Definition load_encounter_3 (names : list string) (f : files) (game : N)
  : res (list string * list area3) :=
  rbind (kept f game) (fill_areas names 0).
