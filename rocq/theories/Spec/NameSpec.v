(** The constant that an encounter file uses for a species. *)
From Coq Require Import NArith Ascii String List.
Import ListNotations.
Open Scope string_scope.

(** [t] is [s] in capitals: the letters a to z and é (two bytes of UTF-8) become capitals,
    and whatever is not one of them stays. *)
Definition small_letters : string := "abcdefghijklmnopqrstuvwxyz".
Definition capital_letters : string := "ABCDEFGHIJKLMNOPQRSTUVWXYZ".
Inductive capitals : string -> string -> Prop :=
| capitals_end : capitals "" ""
| capitals_letter k a b s t : String.get k small_letters = Some a -> String.get k capital_letters = Some b ->
    capitals s t -> capitals (String a s) (String b t)
| capitals_e_acute s t : capitals s t -> capitals ("é" ++ s) ("É" ++ t)
| capitals_other c s t : (forall k, String.get k small_letters <> Some c) -> (forall u, String c s <> "é" ++ u) ->
    capitals s t -> capitals (String c s) (String c t).

(** The two names with a symbol are spelled out. *)
Definition constant_of (name c : string) : Prop :=
  name = "Nidoran♂" /\ c = "SPECIES_NIDORAN_M" \/
  name = "Nidoran♀" /\ c = "SPECIES_NIDORAN_F" \/
  name <> "Nidoran♂" /\ name <> "Nidoran♀" /\ exists rest, c = "SPECIES_" ++ rest /\ capitals name rest.
