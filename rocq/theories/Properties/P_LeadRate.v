(** Property C103: how many of the 2^32 seeds give what a lead is for. *)
From Coq Require Import NArith String List Bool Lia.
From Verif Require Import Base.Word Model.Gen3State Model.Gen3Area Model.Gen3Wild Model.Bundled3
  Spec.Gen3WildSpec Spec.CountSpec Spec.WildRateSpec Spec.LeadRateSpec
  Proofs.Gen3Props Proofs.LeadRate Proofs.BundledLit3 Proofs.BundledProofs3 Properties.P_Gen3.
Import ListNotations.
Open Scope list_scope.
Open Scope N_scope.

(** C103. At any one advance, if some slot is of a Steel type (8), Magnet Pull makes at least half of
    the seeds give a Steel type. *)
Theorem C103_magnet_pull : forall fuel junk g area initial delay,
  length junk = 6%nat -> search_ends g area -> 2^31 <= N.of_nat fuel -> initial + delay < 2^32 ->
  needs_check g = false -> w_lead g = Lead_MAGNET_PULL ->
  Exists (fun sl => has_type (w_table g) 8 sl = true) (slots_of area (w_encounter g)) ->
  2^31 <= how_many (fun s => one_found (state_has_type (w_table g) 8) (wild_generate fuel junk g s delay initial 1 area)) (2^32).
Proof.
  intros fuel junk g area initial delay Hj He Hf Hd Hc L Ex.
  assert (M : get_modified_slots area (w_encounter g) (w_lead g) (w_game g) (w_table g) =
              Ok (filter (has_type (w_table g) 8) (slots_of area (w_encounter g)))).
  { rewrite L. rewrite modified_partial; [reflexivity|exact (proj2 (proj2 (proj1 He)))|discriminate]. }
  exact (attract_rate fuel junk g area initial delay Hj He Hf Hd Hc 8 _ M (or_introl L) eq_refl (filter_not_nil _ _ Ex)).
Qed.
Print Assumptions C103_magnet_pull.
(** Static does so for the type that it looks for by mistake (C47), Psychic (13). *)
Theorem C103_static_actual : forall fuel junk g area initial delay,
  length junk = 6%nat -> search_ends g area -> 2^31 <= N.of_nat fuel -> initial + delay < 2^32 ->
  needs_check g = false -> w_lead g = Lead_STATIC -> (exists k, N.testbit (w_game g) k = true /\ (k < 5 \/ 8 <= k < 12)) ->
  Exists (fun sl => has_type (w_table g) 13 sl = true) (slots_of area (w_encounter g)) ->
  2^31 <= how_many (fun s => one_found (state_has_type (w_table g) 13) (wild_generate fuel junk g s delay initial 1 area)) (2^32).
Proof.
  intros fuel junk g area initial delay Hj He Hf Hd Hc L G Ex.
  assert (M : get_modified_slots area (w_encounter g) (w_lead g) (w_game g) (w_table g) =
              Ok (filter (has_type (w_table g) 13) (slots_of area (w_encounter g)))).
  { rewrite L. apply modified_static; [exact (proj2 (proj2 (proj1 He)))|exact G]. }
  exact (attract_rate fuel junk g area initial delay Hj He Hf Hd Hc 13 _ M (or_intror L) eq_refl (filter_not_nil _ _ Ex)).
Qed.
Print Assumptions C103_static_actual.
(** Pressure makes at least half of the seeds give the highest level of a slot. *)
Theorem C103_pressure : forall fuel junk g area initial delay,
  length junk = 6%nat -> search_ends g area -> 2^31 <= N.of_nat fuel -> initial + delay < 2^32 ->
  needs_check g = false -> w_lead g = Lead_PRESSURE ->
  2^31 <= how_many (fun s => one_found (at_highest_level (slots_of area (w_encounter g))) (wild_generate fuel junk g s delay initial 1 area)) (2^32).
Proof. exact pressure_rate. Qed.
Print Assumptions C103_pressure.
(** All of this holds in every bundled area, for every encounter type but Rock Smash in Emerald. *)
Theorem C103_bundled : forall ns areas area method encounter lead tid sid,
  bundled Game_EMERALD = Ok (ns, areas) -> In area areas ->
  lead = Lead_MAGNET_PULL \/ lead = Lead_STATIC \/ lead = Lead_PRESSURE ->
  encounter mod 256 <> Encounter_ROCK_SMASH ->
  let g := wild_new bundled_tables method encounter lead Game_EMERALD tid sid in
  search_ends g area /\ needs_check g = false /\ w_lead g = lead.
Proof.
  intros ns areas area method encounter lead tid sid E Ha L R g.
  destruct (bundled_setting Game_EMERALD ns areas area ltac:(cbn; tauto) E Ha method encounter lead tid sid) as [S F].
  assert (K : w_lead g = lead) by (destruct L as [-> |[-> | ->]]; reflexivity).
  split; [|split; [|exact K]].
  - split; [exact S|]. split; [exact F|]. fold g. rewrite K. destruct L as [-> |[-> | ->]]; split; discriminate.
  - unfold needs_check. replace (w_encounter g =? Encounter_ROCK_SMASH) with false; [apply andb_false_r|].
    symmetry. apply N.eqb_neq. exact R.
Qed.
Print Assumptions C103_bundled.
(** Where in Emerald the grass has Steel types. *)
Example C103_case :
  rmap (fun x => map fst (filter (fun p => existsb (has_type (t_e bundled_tables) 8) (slots_of (snd p) Encounter_GRASS))
                            (combine (fst x) (snd x)))) (bundled Game_EMERALD) =
  Ok ["Route 113"; "Granite Cave B1F"; "Victory Road 1F"; "Granite Cave B2F"; "New Mauville Inside";
      "Granite Cave Stevens Room"; "New Mauville Entrance"; "Victory Road B1F"; "Victory Road B2F"]%string.
Proof. rewrite bundled_emerald, tables_ok. now vm_compute. Qed.

(** C47 with the bundled data of Emerald: these areas have Electric types (12) in their grass, and in these the slots that Static
    prefers are none or have others. *)
Theorem C47_bundled_refuted :
  let where_ (f : area3 -> bool) := rmap (fun x => map fst (filter (fun p => f (snd p)) (combine (fst x) (snd x)))) (bundled Game_EMERALD) in
  let table := t_e bundled_tables in
  let preferred area := get_modified_slots area Encounter_GRASS Lead_STATIC Game_EMERALD table in
  where_ (fun area => existsb (has_type table 12) (slots_of area Encounter_GRASS)) =
    Ok ["Route 110"; "Route 118"; "Safari Zone South"; "New Mauville Inside"; "New Mauville Entrance"; "Safari Zone Southwest";
        "Safari Zone Southeast"]%string /\
  where_ (fun area => existsb (has_type table 12) (slots_of area Encounter_GRASS) &&
                      match preferred area with Ok [] => true | _ => false end) =
    Ok ["Route 110"; "Route 118"; "New Mauville Inside"; "New Mauville Entrance"; "Safari Zone Southeast"]%string /\
  where_ (fun area => match preferred area with Ok l => existsb (fun slot => negb (has_type table 12 slot)) l | _ => false end) =
    Ok ["Route 102"; "Route 111"; "Route 116"; "Granite Cave 1F"; "Granite Cave B1F"; "Safari Zone South"; "Granite Cave B2F";
        "Meteor Falls B1F 2R"; "Jagged Pass"; "Mt Pyre Summit"; "Granite Cave Stevens Room"; "Route 130"; "Safari Zone Southwest";
        "Safari Zone North"; "Meteor Falls 1F 1R"; "Meteor Falls 1F 2R"; "Meteor Falls B1F 1R"; "Sky Pillar 1F"; "Sky Pillar 3F";
        "Sky Pillar 5F"; "Meteor Falls Stevens Cave"]%string.
Proof. cbv zeta. rewrite bundled_emerald, tables_ok. split; [|split]; vm_compute; exact eq_refl. Qed.
Print Assumptions C47_bundled_refuted.
