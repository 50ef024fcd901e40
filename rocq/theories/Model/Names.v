(** numba_pokemon_prngs/data/__init__.py: names as UTF-8 strings. *)
From Coq Require Import NArith Ascii String List Bool.
From Verif Require Import Base.Word Model.TextData.
Import ListNotations.
Open Scope string_scope.
Open Scope list_scope.
Open Scope N_scope.

(** str.upper() on UTF-8, for the characters that occur in the names: ASCII letters and
    the Latin-1 letters from U+00E0 to U+00FE; every other character is left alone. *)
Fixpoint upper (s : string) : string :=
  match s with
  | EmptyString => EmptyString
  | String c s' =>
      let n := N_of_ascii c in
      if (97 <=? n) && (n <=? 122) then String (ascii_of_N (n - 32)) (upper s')
      else match s' with
           | String d t =>
               let k := N_of_ascii d in
               if (n =? 0xC3) && (0xA0 <=? k) && (k <=? 0xBE) && negb (k =? 0xB7)
               then String c (String (ascii_of_N (k - 32)) (upper t))
               else String c (upper s')
           | EmptyString => String c (upper s')
           end
  end.

(** data/__init__.py:9-16: one element of CONSTANT_CASE_SPECIES_EN. *)
Definition constant_case (name : string) : string :=
  if String.eqb name "Nidoran♂" then "SPECIES_NIDORAN_M"
  else if String.eqb name "Nidoran♀" then "SPECIES_NIDORAN_F"
  else append "SPECIES_" (upper name).
(** data/__init__.py:9-16 *)
Definition CONSTANT_CASE_SPECIES_EN : list string := map constant_case SPECIES_EN.
(** data/__init__.py:30 *)
Definition GENDER_SYMBOLS : list string := ["♂"; "♀"; "-"].
