(** Games and encounter types of the third generation, by their members in enums/. *)
From Coq Require Import String NArith List.
From Verif Require Import Base.Word Model.Enums.
Import ListNotations.
Open Scope list_scope.
Open Scope N_scope.

(** Members of an enum whose names are not in a list. *)
Definition outside (e : list (string * N)) (known : list string) (value : N) : Prop :=
  exists name, In (name, value) e /\ ~ In name known.
(** The games with third-generation wild encounters. *)
Definition games_3 : list string := ["RUBY"; "SAPPHIRE"; "EMERALD"; "FIRE_RED"; "LEAF_GREEN"]%string.
(** The wild encounters of these games. *)
Definition encounters_3 : list string := ["GRASS"; "ROCK_SMASH"; "SURFING"; "OLD_ROD"; "GOOD_ROD"; "SUPER_ROD"]%string.
(** A call that does not return. *)
Definition refused {A} (r : res A) : Prop := exists e, r = Raise e.
(** The methods of their wild encounters. *)
Definition methods_3 : list string := ["METHOD_1"; "METHOD_2"; "METHOD_4"]%string.
(** The leads that have an effect in Emerald besides Synchronize, and no lead. *)
Definition leads_3 : list string :=
  ["NONE"; "CUTE_CHARM_F"; "CUTE_CHARM_M"; "MAGNET_PULL"; "STATIC"; "PRESSURE"; "HUSTLE"; "VITAL_SPIRIT"]%string.
