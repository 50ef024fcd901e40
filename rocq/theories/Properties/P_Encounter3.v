(** C53, C62 and C67: from the JSON files to the generated states, and facts about
    the bundled generation 3 data. *)
From Coq Require Import NArith ZArith Arith String List Lia.
From Verif Require Import Base.Word Model.Gen3State Model.Gen3Area Model.Gen3Wild Model.Encounter3
  Model.EncounterData3 Model.Bundled3 Spec.LcrngSpec Spec.Gen3Spec Spec.Gen3WildSpec Spec.Encounter3Spec Spec.MapNameSpec.
From Verif Require Import Proofs.Encounter3Proofs Proofs.MapNameProofs Proofs.BundledLit3 Proofs.BundledProofs3 Proofs.Gen3Final Proofs.Gen3Props.
Import ListNotations.
Open Scope list_scope.
Open Scope N_scope.

Notation after k s := (lcg_steps 32 0x41C64E6D 0x6073 k s).

(** C62. *)
Theorem C62_areas_are_placed : forall names f game, N.of_nat (length names) <= 2048 ->
  In game gen3_games -> Forall (enc_valid names) (file_of f game) ->
  N.of_nat (length (file_of f game)) <= 65536 ->
  exists keep ns areas,
    (forall e, keep e = true <-> names_game game (e_label e)) /\
    let es := filter keep (file_of f game) in
    load_encounter_3 names f game = Ok (ns, areas) /\
    length ns = length es /\ length areas = length es /\
    forall i e, nth_error es i = Some e ->
      exists n a, nth_error ns i = Some n /\ nth_error areas i = Some a /\
        (left_empty (e_label e) -> n = ""%string /\ empty_area a) /\
        (~ left_empty (e_label e) ->
           map_name (e_map e) n /\ area_is names (N.of_nat i) e a).
Proof.
  intros names f game Hk Hg Hv Hl. destruct (load_ok names f game Hk Hg Hv Hl) as (keep & ns & areas & H1 & H2 & H3 & H4 & H5).
  exists keep, ns, areas. split; [exact H1|]. cbv zeta. do 3 (split; [assumption|]). intros i e He.
  destruct (H5 i e He) as (n & a & Hn & Ha & Hl1 & Hl2). exists n, a. do 3 (split; [assumption|]).
  intros X. destruct (Hl2 X) as [Y Z]. split; [now apply map_name_iff|exact Z].
Qed.
Print Assumptions C62_areas_are_placed.
(** A game without a file raises KeyError. *)
Theorem C62_other_games : forall names f game, ~ In game gen3_games ->
  load_encounter_3 names f game = Raise KeyError.
Proof.
  intros names f game H. unfold load_encounter_3, kept. cbn [gen3_games In] in H.
  repeat (match goal with |- context[game =? ?x] => destruct (N.eqb_spec game x); [exfalso; intuition congruence|] end).
  reflexivity.
Qed.
Print Assumptions C62_other_games.
(** The bundled files are valid. *)
Example C62_case : N.of_nat (length species_names) <= 2048 /\
  forall game, In game gen3_games -> Forall (enc_valid species_names) (file_of bundled_files game) /\
    N.of_nat (length (file_of bundled_files game)) <= 65536.
Proof. exact bundled_valid. Qed.
Example C62_case_area :
  rmap (fun na => (nth_error (fst na) 11, option_map a_land (nth_error (snd na) 11))) (bundled Game_EMERALD)
  = Ok (Some "Route 117"%string,
        Some (map (fun '(l, s) => mkSlot3 l l s)
          [(13, 261); (13, 43); (14, 261); (14, 43); (13, 183); (13, 43);
           (13, 314); (13, 314); (14, 314); (14, 314); (13, 313); (13, 273)])).
Proof. rewrite bundled_emerald. now vm_compute. Qed.

(** C53. What the generator says about the species and the form is what the file says:
    every generated state of a loaded area comes from an entry of its encounter type. *)
Theorem C53_species_and_form : forall names number e area, N.of_nat (length names) <= 2048 ->
  area_is names number e area ->
  forall fuel junk g seed delay initial max l,
  length junk = 6%nat -> setting_ok g area ->
  seed < 2^32 -> initial + delay < 2^32 -> initial + max <= 2^32 ->
  wild_generate fuel junk g seed delay initial max area = Ok l ->
  Forall (fun st =>
    (g_species st = 0 /\ g_form st = 0 /\ g_level st = 0) \/
    exists k m, nth_error (entry_list e (w_encounter g)) k = Some m /\
      (fst (entry_range (w_encounter g)) <= k
         < fst (entry_range (w_encounter g)) + snd (entry_range (w_encounter g)))%nat /\
      species_number names (m_species m) (N.to_nat (g_species st)) /\
      g_form st = entry_form e (w_encounter g) k /\
      m_min m <= g_level st <= m_max m) l.
Proof.
  intros names number e area Hk Ha fuel junk g seed delay initial max l Hj Hset H1 H2 H3 H.
  pose proof (generate_coherent fuel junk g seed delay initial max area l Hj Hset H1 H2 H3 H) as G.
  eapply Forall_impl; [|exact G]. cbv beta. intros st (sl & info & Hin & Hinfo & Hsp & Hlev & _).
  assert (Hs : g_species st < 2048).
  { destruct Hset as (_ & _ & [Hlen _]). assert (N.to_nat (g_species st) < length (w_table g))%nat
      by (apply nth_error_Some; congruence). lia. }
  destruct (slot_entry names number e area (w_encounter g) sl Ha Hin) as [->|(k & m & Hk1 & Hm & S1 & S2 & n & Hn & S3)].
  - left. cbn [s_species s_min_level s_max_level] in Hsp, Hlev. lia.
  - right. exists k, m. split; [exact Hm|]. split; [exact Hk1|].
    pose proof (number_bound _ _ _ Hn) as Hb. rewrite S3 in Hsp.
    destruct (unpack (N.of_nat n) (entry_form e (w_encounter g) k) (g_species st) (g_form st) Hs ltac:(lia) Hsp) as [E1 E2].
    rewrite <- E1, Nat2N.id, <- E2. split; [exact Hn|]. split; [reflexivity|]. now rewrite <- S1, <- S2.
Qed.
Print Assumptions C53_species_and_form.
(** Packing and unpacking one slot, for all species and forms. *)
Theorem C53_pack_unpack : forall names slots i m form, N.of_nat (length names) <= 2048 ->
  (i < length slots)%nat -> mon_valid names m -> form < 32 ->
  exists slots' s n, put_mon names (Ok (Some form)) slots i m = Ok slots' /\
    nth_error slots' i = Some s /\ species_number names (m_species m) n /\
    N.land (s_species s) 0x7FF = N.of_nat n /\ N.shiftr (s_species s) 11 = form.
Proof.
  intros names slots i m form Hk Hi Hm Hf.
  destruct (put_mon_ok names (fun _ => Ok (Some form)) (fun _ => form) (S i) slots i m Hk)
    as (s & (_ & _ & n & Hn & S3) & E); [intros j _; split; [exact Hf|now left]|exact Hm|exact Hi|lia|].
  exists (firstn i slots ++ s :: skipn (S i) slots), s, n. split; [exact E|].
  split; [rewrite nth_replace by exact Hi; now rewrite Nat.eqb_refl|]. split; [exact Hn|].
  pose proof (number_bound _ _ _ Hn) as Hb. rewrite S3. change 0x7FF with (N.ones 11).
  rewrite N.land_ones, N.shiftr_div_pow2. change (2^11) with 2048. rewrite (N.mul_comm 2048).
  rewrite N.mod_add, N.div_add, N.mod_small, N.div_small by lia. now split.
Qed.
Print Assumptions C53_pack_unpack.
(** The last slot of the Monean Chamber is the Unown "?", form 27. *)
Example C53_case : put_mon ["A"; "SPECIES_UNOWN"]%string (unown_form "MAP_SEVEN_ISLAND_TANOBY_RUINS_MONEAN_CHAMBER" 11)
    (repeat zero_slot 12) 11 (mkMon 25 25 "SPECIES_UNOWN")
  = Ok (repeat zero_slot 11 ++ [mkSlot3 25 25 (1 + 2048 * 27)]).
Proof. now vm_compute. Qed.

(** C67. The bundled areas and tables are accepted by the generator: for every game, area,
    encounter type and lead but Cute Charm, [generate] returns. Missing from the claim:
    Cute Charm, below. *)
Theorem C67_bundled_areas_partial : forall game, In game gen3_games ->
  exists ns areas, bundled game = Ok (ns, areas) /\ length ns = length areas /\
  forall area, In area areas ->
  forall method encounter lead tid sid,
  let g := wild_new bundled_tables method encounter lead game tid sid in
  setting_ok g area /\
  (w_lead g <> Lead_CUTE_CHARM_M -> w_lead g <> Lead_CUTE_CHARM_F ->
   forall fuel junk seed delay initial max, length junk = 6%nat -> 2^31 <= N.of_nat fuel ->
   seed < 2^32 -> initial + delay < 2^32 -> initial + max <= 2^32 ->
   exists l, wild_generate fuel junk g seed delay initial max area = Ok l).
Proof.
  intros game Hg. destruct (bundled_ok game Hg) as (ns & areas & E & L & _).
  exists ns, areas. split; [exact E|]. split; [exact L|]. intros area Ha method encounter lead tid sid g.
  destruct (bundled_setting game ns areas area Hg E Ha method encounter lead tid sid) as [S F].
  split; [exact S|]. intros. now apply generate_ends.
Qed.
Print Assumptions C67_bundled_areas_partial.
(** In Emerald it also returns with Cute Charm leads, wherever the area has encounters of
    the type, except in the grass of Route 117 (area 11). *)
Theorem C67_emerald_cute_charm_partial : forall ns areas area method encounter lead tid sid,
  bundled Game_EMERALD = Ok (ns, areas) -> In area areas ->
  let g := wild_new bundled_tables method encounter lead Game_EMERALD tid sid in
  (a_location area <> 11 \/ In (w_encounter g) [Encounter_ROCK_SMASH; Encounter_SURFING;
     Encounter_OLD_ROD; Encounter_GOOD_ROD; Encounter_SUPER_ROD]) ->
  Forall (fun s => species_of s <> 0) (slots_of area (w_encounter g)) ->
  forall fuel junk seed delay initial max, length junk = 6%nat -> 2^31 <= N.of_nat fuel ->
  seed < 2^32 -> initial + delay < 2^32 -> initial + max <= 2^32 ->
  exists l, wild_generate fuel junk g seed delay initial max area = Ok l.
Proof.
  intros ns areas area method encounter lead tid sid E Ha g He Hz fuel junk seed delay initial max Hj Hf H1 H2 H3.
  assert (Hg : In Game_EMERALD gen3_games) by (cbn; tauto).
  destruct (bundled_setting Game_EMERALD ns areas area Hg E Ha method encounter lead tid sid) as [S _].
  apply generate_total; try assumption.
  assert (Et : forall t m e l a b, w_table (wild_new t m e l Game_EMERALD a b) = t_e t) by reflexivity.
  intros s info charm Hs Hi _. unfold g in Hi at 1. rewrite Et in Hi. rewrite Forall_forall in Hz.
  exact (emerald_satisfiable ns areas area (w_encounter g) (w_lead g) _ s info charm E Ha He Hs (Hz s Hs) Hi eq_refl).
Qed.
Print Assumptions C67_emerald_cute_charm_partial.
(** On Route 117 the male Cute Charm lead makes [generate] run forever as soon as Volbeat
    is rolled and the charm roll is nonzero. Seed 30 is such a seed. *)
Theorem C67_route_117_refuted :
  exists ns areas area, bundled Game_EMERALD = Ok (ns, areas) /\
    nth_error ns 11 = Some "Route 117"%string /\ nth_error areas 11 = Some area /\
    let g := wild_new bundled_tables 1 Encounter_GRASS Lead_CUTE_CHARM_M Game_EMERALD 12345 54321 in
    Forall (fun s => species_of s <> 0) (slots_of area (w_encounter g)) /\
    forall fuel junk, length junk = 6%nat ->
    wild_generate fuel junk g hang_seed 0 0 1 area = Raise OutOfFuel.
Proof. exact route_117. Qed.
Print Assumptions C67_route_117_refuted.
Example C67_case :
  let g := wild_new bundled_tables 1 Encounter_SURFING Lead_CUTE_CHARM_M Game_EMERALD 1 2 in
  match bundled Game_EMERALD with
  | Ok (ns, areas) => match nth_error areas 11 with
    | Some area => rmap (map (fun st => (g_species st, g_level st, g_pid st)))
                     (wild_generate 3000 [0; 0; 0; 0; 0; 0] g 0xABCD 0 0 2 area)
    | None => Raise IndexError end
  | Raise e => Raise e
  end = Ok [(183, 24, 861830908); (183, 24, 1201312081)].
Proof. rewrite bundled_emerald, tables_ok. now vm_compute. Qed.

(** C62 on the bundled data: the safari zones are the areas named so. *)
Theorem C62_bundled_safari_zones : forall game ns areas,
  In game [Game_RUBY; Game_SAPPHIRE; Game_EMERALD] -> bundled game = Ok (ns, areas) ->
  forall i n a, nth_error ns i = Some n -> nth_error areas i = Some a ->
  (is_rse_safari_zone a game = true <-> occurs "Safari Zone" n).
Proof. exact safari_names. Qed.
Print Assumptions C62_bundled_safari_zones.
Example C62_bundled_safari_case : rmap (fun na => filter (contains "Safari") (fst na)) (bundled Game_EMERALD) =
  Ok ["Safari Zone South"; "Safari Zone Southwest"; "Safari Zone North";
      "Safari Zone Northwest"; "Safari Zone Southeast"; "Safari Zone Northeast"]%string.
Proof. rewrite bundled_emerald. now vm_compute. Qed.

(** C62 on the bundled data: a map name identifies its area. *)
Theorem C62_bundled_names_distinct : forall game ns areas,
  In game gen3_games -> bundled game = Ok (ns, areas) ->
  forall i j n, nth_error ns i = Some n -> nth_error ns j = Some n -> n <> ""%string -> i = j.
Proof. exact names_distinct. Qed.
Print Assumptions C62_bundled_names_distinct.
Example C62_bundled_names_case : map (fun g => rmap (fun na => length (fst na)) (bundled g)) gen3_games =
  [Ok 97; Ok 97; Ok 124; Ok 132; Ok 132]%nat.
Proof.
  cbn [gen3_games map]. rewrite bundled_ruby, bundled_sapphire, bundled_emerald, bundled_fire_red, bundled_leaf_green.
  now vm_compute.
Qed.
