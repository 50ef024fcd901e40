(** Properties C71 and C72: the text of states, and species names. *)
From Coq Require Import NArith ZArith Ascii String List Bool SpecFloat.
From Verif Require Import Base.Word Model.Gen3State Model.Gen3Area Model.Gen3Wild Model.Encounter3 Model.EncounterData3
  Model.TextData Model.Names Model.Gen3Csv Model.Bundled3
  Spec.Encounter3Spec Spec.Gen3Spec Spec.Gen3WildSpec Spec.TextSpec Spec.NameSpec Proofs.BundledLit3 Proofs.BundledProofs3 Proofs.CsvProofs Proofs.CsvFormat Proofs.BundledText3 Proofs.NameProofs.
Import ListNotations.
Open Scope list_scope.
Open Scope N_scope.

(** C71. Every state of a run prints as the line of the specification, whatever [float],
    the text of a float, is. *)
Theorem C71_generated_states_print : forall float fuel junk g seed delay initial max area l,
  length junk = 6%nat -> setting_ok g area ->
  (length (w_table g) <= 1011)%nat -> Forall (fun i => pi_ability_1 i < 299 /\ pi_ability_2 i < 299) (w_table g) ->
  seed < 2^32 -> initial + delay < 2^32 -> initial + max <= 2^32 ->
  wild_generate fuel junk g seed delay initial max area = Ok l ->
  Forall (fun st => exists rows line, csv float Numba st = Ok rows /\
    map fst rows = ["Advance"; "Species"; "Level"; "PID"; "Nature"; "Ability"; "IVs"; "Stats"; "HP"; "Gender"]%string /\
    str float Numba st = Ok line /\ line_of st (hidden_power_power (g_ivs st)) line) l.
Proof. exact generated_line. Qed.
Print Assumptions C71_generated_states_print.
(** In particular every state generated from the bundled data. *)
Theorem C71_bundled_states_print : forall game ns areas area, In game gen3_games ->
  bundled game = Ok (ns, areas) -> In area areas ->
  forall method encounter lead tid sid, let g := wild_new bundled_tables method encounter lead game tid sid in
  forall float fuel junk seed delay initial max l, length junk = 6%nat ->
  seed < 2^32 -> initial + delay < 2^32 -> initial + max <= 2^32 ->
  wild_generate fuel junk g seed delay initial max area = Ok l ->
  Forall (fun st => exists line, str float Numba st = Ok line /\ line_of st (hidden_power_power (g_ivs st)) line) l.
Proof.
  intros game ns areas area Hg E Ha method encounter lead tid sid g float fuel junk seed delay initial max l Hj H1 H2 H3 H.
  destruct (bundled_setting game ns areas area Hg E Ha method encounter lead tid sid) as [S _].
  assert (T : w_table g = get_info_table_3 bundled_tables (w8 game)) by reflexivity.
  assert (L : (length (w_table g) <= 1011)%nat).
  { rewrite T. pose proof (proj1 (table_ok (w8 game))) as Q. Lia.lia. }
  assert (A : names_abilities (w_table g)) by (rewrite T; apply bundled_abilities).
  pose proof (generated_line float _ _ _ _ _ _ _ _ _ Hj S L A H1 H2 H3 H) as F.
  revert F. apply Forall_impl. intros st (rows & line & _ & _ & P). now exists line.
Qed.
Print Assumptions C71_bundled_states_print.
(** The line of any state, also without numba, if the strength of its hidden power is an integer. *)
Theorem C71_line_format : forall float m st line power,
  g_pid st < 2^32 -> length (g_ivs st) = 6%nat -> length (g_stats st) = 6%nat ->
  g_hidden_power st < 16 -> g_hidden_power_strength st = AInt power ->
  str float m st = Ok line -> line_of st power line.
Proof. exact line_format. Qed.
Print Assumptions C71_line_format.
(** Two states with the same line agree in every field shown. The table of abilities
    repeats names, so of the ability the slot and the name. *)
Theorem C71_line_shows_the_state : forall float m st st' s n n',
  g_pid st < 2^32 -> g_pid st' < 2^32 ->
  length (g_ivs st) = 6%nat -> length (g_ivs st') = 6%nat ->
  length (g_stats st) = 6%nat -> length (g_stats st') = 6%nat ->
  g_hidden_power_strength st = AInt n -> g_hidden_power_strength st' = AInt n' ->
  str float m st = Ok s -> str float m st' = Ok s ->
  g_advance st = g_advance st' /\ g_species st = g_species st' /\ g_form st = g_form st' /\
  g_level st = g_level st' /\ g_pid st = g_pid st' /\ g_nature st = g_nature st' /\
  g_ability st = g_ability st' /\
  nth_error ABILITIES_EN (N.to_nat (g_ability_index st)) = nth_error ABILITIES_EN (N.to_nat (g_ability_index st')) /\
  g_ivs st = g_ivs st' /\ g_stats st = g_stats st' /\ g_hidden_power st = g_hidden_power st' /\
  g_hidden_power_strength st = g_hidden_power_strength st' /\ g_gender st = g_gender st'.
Proof. exact line_faithful. Qed.
Print Assumptions C71_line_shows_the_state.
Example C71_case :
  let g := wild_new bundled_tables 1 Encounter_SURFING Lead_CUTE_CHARM_M Game_EMERALD 1 2 in
  match bundled Game_EMERALD with
  | Ok (ns, areas) => match nth_error areas 11 with
    | Some area => rbind (wild_generate 3000 [0; 0; 0; 0; 0; 0] g 0xABCD 0 0 1 area)
                     (fun l => rbind (look l 0) (str (fun _ => ""%string) Numba))
    | None => Raise IndexError end
  | Raise e => Raise e
  end = Ok ("Advance: 0, Species: Marill, Level: 24, PID: 335E7EFC, Nature: Impish, Ability: Thick Fat (0), " ++
            "IVs: 21/27/22/12/10/6, Stats: 72/21/37/17/27/25, HP: Fighting (59), Gender: ♂")%string.
Proof. rewrite bundled_emerald, tables_ok. now vm_compute. Qed.

(** C72. An encounter file's species constant is found at [k] exactly when it is the
    constant of the [k]-th English name, see Spec/NameSpec.v. No constant is that of two
    names. [species_names] is the table given to the loader. *)
Theorem C72_constants_name_species : forall k c, index CONSTANT_CASE_SPECIES_EN c 0 = Ok (N.of_nat k) <->
  exists name, nth_error SPECIES_EN k = Some name /\ constant_of name c.
Proof. exact species_index. Qed.
Print Assumptions C72_constants_name_species.
Theorem C72_loader_table : CONSTANT_CASE_SPECIES_EN = species_names.
Proof. exact constant_names. Qed.
Print Assumptions C72_loader_table.
Theorem C72_constants_distinct : forall name name' c,
  In name SPECIES_EN -> In name' SPECIES_EN -> constant_of name c -> constant_of name' c -> name = name'.
Proof. exact constants_apart. Qed.
Print Assumptions C72_constants_distinct.
(** The constants are words without lower case letters. *)
Theorem C72_constants_shape : forall c, In c CONSTANT_CASE_SPECIES_EN ->
  exists rest, c = ("SPECIES_" ++ rest)%string /\ rest <> ""%string /\
    forall n x, String.get n rest = Some x -> ~ (97 <= N_of_ascii x <= 122).
Proof. exact constant_shape. Qed.
Print Assumptions C72_constants_shape.
Example C72_case : map (fun c => index species_names c 0)
    ["SPECIES_NIDORAN_F"; "SPECIES_FARFETCH’D"; "SPECIES_FLABÉBÉ"; "SPECIES_Marill"]%string =
  [Ok 29; Ok 83; Ok 669; Raise ValueError] /\
  constant_of "Flabébé" "SPECIES_FLABÉBÉ".
Proof.
  split; [now vm_compute|]. apply (constant_case_of "Flabébé"); [|now vm_compute].
  apply (nth_error_In _ 669). now vm_compute.
Qed.
