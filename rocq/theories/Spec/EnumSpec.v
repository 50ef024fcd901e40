(** The games and the natures by name, and what the members of an enum should be. *)
From Coq Require Import NArith String List.
Import ListNotations.
Open Scope string_scope.
Open Scope list_scope.

Definition games : list string :=
  ["RUBY"; "SAPPHIRE"; "EMERALD"; "FIRE_RED"; "LEAF_GREEN"; "GALES"; "COLOSSEUM"; "DIAMOND"; "PEARL"; "PLATINUM";
   "HEART_GOLD"; "SOUL_SILVER"; "BLACK"; "WHITE"; "BLACK2"; "WHITE2"; "X"; "Y"; "OMEGA_RUBY"; "ALPHA_SAPPHIRE";
   "SUN"; "MOON"; "ULTRA_SUN"; "ULTRA_MOON"; "SWORD"; "SHIELD"; "BRILLIANT_DIAMOND"; "SHINING_PEARL";
   "LEGENDS_ARCEUS"].

(** In the order of the games, number 0 first. *)
Definition natures : list string :=
  ["HARDY"; "LONELY"; "BRAVE"; "ADAMANT"; "NAUGHTY"; "BOLD"; "DOCILE"; "RELAXED"; "IMPISH"; "LAX"; "TIMID"; "HASTY";
   "SERIOUS"; "JOLLY"; "NAIVE"; "MODEST"; "MILD"; "QUIET"; "BASHFUL"; "RASH"; "CALM"; "GENTLE"; "SASSY"; "CAREFUL";
   "QUIRKY"].

(** Abilities with the effect of another one share its member. *)
Definition shared : list (string * string) :=
  [("HUSTLE", "PRESSURE"); ("VITAL_SPIRIT", "PRESSURE"); ("STICKY_HOLD", "SUCTION_CUPS");
   ("SUPER_LUCK", "COMPOUND_EYES"); ("ILLUMINATE", "ARENA_TRAP"); ("NO_GUARD", "ARENA_TRAP")].

(** The value that stands for a set of games, as in [Game.RUBY | Game.SAPPHIRE]. *)
Definition union (value : string -> option N) (names : list string) : N :=
  fold_right (fun n s => match value n with Some v => N.lor v s | None => s end) 0%N names.
