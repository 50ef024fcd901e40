(** C78 and C79: the names of the maps of generation 3, and the Unown letters. *)
From Coq Require Import NArith Arith Ascii String List Lia.
From Verif Require Import Base.Word Model.Gen3State Model.Gen3Area Model.Gen3Wild Model.Encounter3
  Model.EncounterData3 Model.Bundled3 Spec.Gen3Spec Spec.Gen3WildSpec Spec.Encounter3Spec Spec.MapNameSpec.
From Verif Require Import Proofs.MapNameProofs Proofs.BundledLit3 Proofs.UnownProofs.
Import ListNotations.
Open Scope list_scope.
Open Scope N_scope.

(** C78. The name of a map is made from its identifier by the rules of Spec/MapNameSpec.v,
    which allow one name only. *)
Theorem C78_readable_names : forall id name, map_name id name <-> name = clean_map_string id.
Proof. exact map_name_iff. Qed.
Print Assumptions C78_readable_names.
Example C78_case : map clean_map_string
    ["MAP_ROUTE101"; "MAP_METEOR_FALLS_B1F_2R"; "MAP_SEAFLOOR_CAVERN_ROOM8";
     "MAP_MT_EMBER_RUBY_PATH_B1F_STAIRS"; "MAP_MAP_rouTE12x_"; ""]%string
  = ["Route 101"; "Meteor Falls B1F 2R"; "Seafloor Cavern Room 8";
     "Mt Ember Ruby Path B1F Stairs"; "Route 12"; ""]%string.
Proof. reflexivity. Qed.
(** A name is its own name. *)
Theorem C78_clean_is_clean : forall id, clean_map_string (clean_map_string id) = clean_map_string id.
Proof. exact clean_twice. Qed.
Print Assumptions C78_clean_is_clean.
(** Identifiers in general can share a name: what follows the number of a route or a room
    is dropped. *)
Theorem C78_identifiers_can_share_a_name :
  exists a b, a <> b /\ clean_map_string a = clean_map_string b.
Proof. exists "MAP_ROUTE4A"%string, "MAP_ROUTE4B"%string. now split. Qed.
Print Assumptions C78_identifiers_can_share_a_name.

(** C79. Each of the 28 letters is found in the grass of exactly one area of FireRed and
    of LeafGreen. *)
Theorem C79_every_letter_in_one_area : forall game ns areas,
  In game [Game_FIRE_RED; Game_LEAF_GREEN] -> bundled game = Ok (ns, areas) ->
  forall n, n < 28 -> exists i a, nth_error areas i = Some a /\
    forall j b, nth_error areas j = Some b ->
      ((exists s, In s (slots_of b Encounter_GRASS) /\ species_of s = 201 /\ form_of s = n) <-> j = i).
Proof.
  intros game ns areas Hg Hb n Hn. destruct (bundled_letters game ns areas Hg Hb n Hn) as (i & a & Ha & H).
  exists i, a. split; [exact Ha|]. intros j b Hj. rewrite <- (H j b Hj).
  change (slots_of b Encounter_GRASS) with (a_land b). unfold species_of, form_of.
  split; intros (s & H1 & H2); exists s; (split; [exact H1|]).
  - destruct H2 as [E1 E2]. rewrite (N.div_mod (s_species s) 2048), E1, E2 by discriminate. lia.
  - rewrite H2, (N.mul_comm 2048 n). rewrite N.mod_add, N.div_add by discriminate. now split.
Qed.
Print Assumptions C79_every_letter_in_one_area.
(** The chambers and their letters, slot by slot. *)
Theorem C79_chambers : forall game ns areas,
  In game [Game_FIRE_RED; Game_LEAF_GREEN] -> bundled game = Ok (ns, areas) ->
  forall chamber letters, In (chamber, letters) chamber_names -> exists i a,
    nth_error ns i = Some ("Seven Island Tanoby Ruins " ++ chamber ++ " Chamber")%string /\
    nth_error areas i = Some a /\
    map s_species (slots_of a Encounter_GRASS)
    = map (fun l => 201 + 2048 * position l alphabet) (list_ascii_of_string letters).
Proof. exact bundled_chambers. Qed.
Print Assumptions C79_chambers.
Example C79_case : bundled Game_FIRE_RED = Ok areas_fire_red /\
  map (fun c => position c alphabet) ["A"; "Z"; "!"; "?"]%char = [0; 25; 26; 27].
Proof. split; [exact bundled_fire_red|reflexivity]. Qed.
