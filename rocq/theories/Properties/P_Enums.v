(** C80: the members of the enums. *)
From Coq Require Import NArith String List.
From Verif Require Import Model.Enums Spec.EnumSpec Proofs.EnumProofs.
From Verif Require Model.Personal Model.Gen3Area Model.Gen3Wild Model.SHA1 Model.BundledLA.
Import ListNotations.
Open Scope string_scope.
Open Scope list_scope.
Open Scope N_scope.

(** C80. A set of games is a value from which each game can be told, whatever the set. Missing:
    Platinum. *)
Theorem C80_games_told_apart_partial : forall names game v,
  (forall n, In n names -> In n games /\ n <> "PLATINUM") -> In game games -> game <> "PLATINUM" ->
  value_of Game game = Some v ->
  (N.land (union (value_of Game) names) v <> 0 <-> In game names).
Proof. exact games_told_apart. Qed.
Print Assumptions C80_games_told_apart_partial.
(** Platinum has the value of Diamond, of which it is an alias. *)
Theorem C80_platinum_refuted :
  value_of Game "PLATINUM" = value_of Game "DIAMOND" /\ member_of Game 512 = Some "DIAMOND" /\
  N.land (union (value_of Game) ["DIAMOND"; "PEARL"]) 512 <> 0 /\ value_of Game "PLATINUM" = Some 512.
Proof. vm_compute. repeat split; discriminate. Qed.
Print Assumptions C80_platinum_refuted.
(** Every game has a value. *)
Theorem C80_games_are_members : map fst Game = "NONE" :: games.
Proof. reflexivity. Qed.
Print Assumptions C80_games_are_members.
Example C80_games_case : union (value_of Game) ["EMERALD"; "RUBY"; "SWORD"] = 16777221 /\
  value_of Game "SWORD" = Some 16777216 /\ In "SWORD" games.
Proof. vm_compute. repeat split. tauto. Qed.

(** In the other enums a value gives back the name it was taken from, up to the abilities that
    share a member. *)
Theorem C80_members : forall e name v,
  In e [Encounter; Lead; Method; Language; DSType; LAArea; LATime; LAWeather] -> In (name, v) e ->
  value_of e name = Some v /\
  (forall c, In (name, c) shared -> member_of e v = Some c) /\
  (~ In name (map fst shared) -> member_of e v = Some name).
Proof. exact members. Qed.
Print Assumptions C80_members.
Example C80_members_case : value_of Lead "VITAL_SPIRIT" = Some 32 /\ member_of Lead 32 = Some "PRESSURE" /\
  member_of LAWeather 6 = Some "FOG" /\ member_of Method 24 = None.
Proof. now vm_compute. Qed.

(** The values of the times and of the weathers are the columns of the two arrays of
    multipliers, which have as many columns as the enums have members. *)
Theorem C80_columns : forall e name v, In e [LATime; LAWeather] -> In (name, v) e -> (N.to_nat v < length e)%nat.
Proof. exact columns. Qed.
Print Assumptions C80_columns.
Example C80_columns_case : In ("SNOWSTORM", 8) LAWeather /\ length LAWeather = 9%nat.
Proof. split; [do 8 right; left; reflexivity|reflexivity]. Qed.

(** The synchronize leads are numbered as the natures. *)
Theorem C80_synchronize : forall i n, nth_error natures i = Some n ->
  value_of Lead ("SYNCHRONIZE_" ++ n) = Some (N.of_nat i).
Proof. exact synchronize. Qed.
Print Assumptions C80_synchronize.
Example C80_synchronize_case : value_of Lead "SYNCHRONIZE_ADAMANT" = Some 3 /\ nth_error natures 3 = Some "ADAMANT".
Proof. now vm_compute. Qed.

(** The constants that the models of the other files use are these members. *)
Theorem C80_constants :
  (Forall (fun p => value_of Game (fst p) = Some (snd p))
    [("RUBY", Personal.RUBY); ("SAPPHIRE", Personal.SAPPHIRE); ("EMERALD", Personal.EMERALD); ("FIRE_RED", Personal.FIRE_RED);
     ("LEAF_GREEN", Personal.LEAF_GREEN); ("GALES", Personal.GALES); ("COLOSSEUM", Personal.COLOSSEUM);
     ("DIAMOND", Personal.DIAMOND); ("PEARL", Personal.PEARL); ("PLATINUM", Personal.PLATINUM);
     ("HEART_GOLD", Personal.HEART_GOLD); ("SOUL_SILVER", Personal.SOUL_SILVER); ("BLACK", Personal.BLACK);
     ("WHITE", Personal.WHITE); ("BLACK2", Personal.BLACK2); ("WHITE2", Personal.WHITE2); ("X", Personal.X); ("Y", Personal.Y);
     ("OMEGA_RUBY", Personal.OMEGA_RUBY); ("ALPHA_SAPPHIRE", Personal.ALPHA_SAPPHIRE); ("SUN", Personal.SUN);
     ("MOON", Personal.MOON); ("ULTRA_SUN", Personal.ULTRA_SUN); ("ULTRA_MOON", Personal.ULTRA_MOON);
     ("SWORD", Personal.SWORD); ("SHIELD", Personal.SHIELD); ("BRILLIANT_DIAMOND", Personal.BRILLIANT_DIAMOND);
     ("SHINING_PEARL", Personal.SHINING_PEARL); ("LEGENDS_ARCEUS", Personal.LEGENDS_ARCEUS);
     ("RUBY", Gen3Area.Game_RUBY); ("SAPPHIRE", Gen3Area.Game_SAPPHIRE); ("EMERALD", Gen3Area.Game_EMERALD);
     ("FIRE_RED", Gen3Area.Game_FIRE_RED); ("LEAF_GREEN", Gen3Area.Game_LEAF_GREEN); ("DIAMOND", Gen3Area.Game_DIAMOND);
     ("PEARL", Gen3Area.Game_PEARL); ("PLATINUM", Gen3Area.Game_PLATINUM); ("HEART_GOLD", Gen3Area.Game_HEART_GOLD);
     ("SOUL_SILVER", Gen3Area.Game_SOUL_SILVER);
     ("BLACK", SHA1.G_BLACK); ("WHITE", SHA1.G_WHITE); ("BLACK2", SHA1.G_BLACK2); ("WHITE2", SHA1.G_WHITE2)]) /\
  (Forall (fun p => value_of Encounter (fst p) = Some (snd p))
    [("GRASS", Gen3Area.Encounter_GRASS); ("ROCK_SMASH", Gen3Area.Encounter_ROCK_SMASH);
     ("SURFING", Gen3Area.Encounter_SURFING); ("OLD_ROD", Gen3Area.Encounter_OLD_ROD);
     ("GOOD_ROD", Gen3Area.Encounter_GOOD_ROD); ("SUPER_ROD", Gen3Area.Encounter_SUPER_ROD)]) /\
  (Forall (fun p => value_of Lead (fst p) = Some (snd p))
    [("SYNCHRONIZE_QUIRKY", Gen3Area.Lead_SYNCHRONIZE_QUIRKY); ("CUTE_CHARM_F", Gen3Area.Lead_CUTE_CHARM_F);
     ("CUTE_CHARM_M", Gen3Area.Lead_CUTE_CHARM_M); ("MAGNET_PULL", Gen3Area.Lead_MAGNET_PULL);
     ("STATIC", Gen3Area.Lead_STATIC); ("HARVEST", Gen3Area.Lead_HARVEST); ("FLASH_FIRE", Gen3Area.Lead_FLASH_FIRE);
     ("STORM_DRAIN", Gen3Area.Lead_STORM_DRAIN); ("PRESSURE", Gen3Area.Lead_PRESSURE); ("NONE", Gen3Area.Lead_NONE)]) /\
  (Forall (fun p => value_of Method (fst p) = Some (snd p))
    [("METHOD_2", Gen3Wild.Method_METHOD_2); ("METHOD_4", Gen3Wild.Method_METHOD_4)]) /\
  (Forall (fun p => value_of Language (fst p) = Some (snd p))
    [("ENGLISH", SHA1.L_ENGLISH); ("FRENCH", SHA1.L_FRENCH); ("GERMAN", SHA1.L_GERMAN); ("ITALIAN", SHA1.L_ITALIAN);
     ("JAPANESE", SHA1.L_JAPANESE); ("KOREAN", SHA1.L_KOREAN); ("SPANISH", SHA1.L_SPANISH)]) /\
  (Forall (fun p => value_of DSType (fst p) = Some (snd p))
    [("DS", SHA1.DS_DS); ("DSI", SHA1.DS_DSI); ("DS3", SHA1.DS_DS3)]) /\
  (Forall (fun p => value_of LAArea (fst p) = Some (snd p))
    [("OBSIDIAN_FIELDLANDS", BundledLA.OBSIDIAN_FIELDLANDS); ("CRIMSON_MIRELANDS", BundledLA.CRIMSON_MIRELANDS);
     ("COBALT_COASTLANDS", BundledLA.COBALT_COASTLANDS); ("CORONET_HIGHLANDS", BundledLA.CORONET_HIGHLANDS);
     ("ALABASTER_ICELANDS", BundledLA.ALABASTER_ICELANDS)]).
Proof. repeat split; repeat constructor. Qed.
Print Assumptions C80_constants.
