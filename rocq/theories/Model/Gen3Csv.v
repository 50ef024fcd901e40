(** numba_pokemon_prngs/gen3/state.py:105-147: the text of a state. *)
From Coq Require Import NArith ZArith Ascii String List Bool SpecFloat Decimal DecimalString.
From Verif Require Import Base.Word Model.Util Model.TextData Model.Names Model.Gen3State.
Import ListNotations.
Open Scope string_scope.
Open Scope list_scope.
Open Scope N_scope.

(** str(n) of an unsigned integer, also in f-strings. *)
Definition show (n : N) : string := NilZero.string_of_uint (N.to_uint n).
(** Indexing a tuple or an array with an unsigned integer. *)
Definition look {A} (t : list A) (i : N) : res A :=
  match nth_error t (N.to_nat i) with Some x => Ok x | None => Raise IndexError end.

(** gen3/state.py:120-127 and 131-138: the first six elements between slashes. *)
Definition six (l : list N) : res string :=
  rbind (look l 0) (fun a => rbind (look l 1) (fun b => rbind (look l 2) (fun c =>
  rbind (look l 3) (fun d => rbind (look l 4) (fun e => rbind (look l 5) (fun f =>
  Ok (show a ++ "/" ++ show b ++ "/" ++ show c ++ "/" ++ show d ++ "/" ++ show e ++ "/" ++ show f)%string)))))).

(** hidden_power_strength in an f-string. [float] is repr of a float, which is only
    needed without numba. *)
Definition show_attr (float : spec_float -> string) (a : attr) : string :=
  match a with AInt n => show n | AFloat f => float f end.

(** gen3/state.py:105-141, [csv]. *)
Definition csv (float : spec_float -> string) (m : mode) (st : gstate) : res (list (string * string)) :=
  rbind (look SPECIES_EN (g_species st)) (fun species =>
  rbind (hex_32 m (g_pid st)) (fun pid =>
  rbind (look NATURES_EN (g_nature st)) (fun nature =>
  rbind (look ABILITIES_EN (g_ability_index st)) (fun ability =>
  rbind (six (g_ivs st)) (fun ivs =>
  rbind (six (g_stats st)) (fun stats =>
  rbind (look TYPES_EN (g_hidden_power st + 1)) (fun type =>
  rbind (look GENDER_SYMBOLS (g_gender st)) (fun gender =>
  Ok [("Advance", show (g_advance st));
      ("Species", species ++ (if (g_form st =? 0)%N then "" else "-" ++ show (g_form st)))%string;
      ("Level", show (g_level st));
      ("PID", pid);
      ("Nature", nature);
      ("Ability", ability ++ " (" ++ show (g_ability st) ++ ")")%string;
      ("IVs", ivs);
      ("Stats", stats);
      ("HP", type ++ " (" ++ show_attr float (g_hidden_power_strength st) ++ ")")%string;
      ("Gender", gender)])))))))).

(** gen3/state.py:143-147, [__str__]. *)
Definition join_rows (rows : list (string * string)) : string :=
  fold_left (fun acc r => acc ++ fst r ++ ": " ++ snd r ++ ", ")%string rows "".
Definition str (float : spec_float -> string) (m : mode) (st : gstate) : res string :=
  rmap (fun rows => let s := join_rows rows in substring 0 (String.length s - 2) s) (csv float m st).
