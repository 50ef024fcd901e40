(** C83: the bundled personal tables. *)
From Coq Require Import NArith String List Bool.
From Verif Require Import Base.Word Model.Personal Model.TextData Model.EncounterLA Model.BundledLA Model.BundledPersonal
  Spec.PersonalSpec Spec.PersonalTableSpec Proofs.PersonalTableFast Proofs.PersonalTableProofs Proofs.BundledProofsLA Proofs.PersonalLA.
Import ListNotations.
Open Scope string_scope.
Open Scope list_scope.
Open Scope N_scope.

(** C83. Each table has the listed number of records, all whole. The attributes in [numbers]
    can be read from every one of them, and from no other. *)
Theorem C83_tables_load : forall t count, In (t, count) record_counts ->
  (exists l rs, PERSONAL_INFO t = Some (l, rs) /\ N.of_nat (length rs) = count /\
     (forall r, In r rs -> length r = size_of l)) /\
  forall k name, In name numbers -> (k < count <-> exists n, reads t k name n).
Proof.
  intros t count H. split; [exact (tables_load t count H)|]. intros k name Hn. exact (numbers_read t count k name H Hn).
Qed.
Print Assumptions C83_tables_load.

(** Past the last record every attribute raises IndexError. *)
Theorem C83_past_the_end : forall t count k name, In (t, count) record_counts -> count <= k ->
  personal_attr t k name = Raise IndexError.
Proof. exact past_the_end. Qed.
Print Assumptions C83_past_the_end.

(** Types and abilities have names, and gender ratios and growth rates are known ones. *)
Theorem C83_values : forall t k n,
  (forall name, In name ["type_1"; "type_2"] -> reads t k name n -> n < N.of_nat (length TYPES_EN)) /\
  (forall name, In name ["ability_1"; "ability_2"; "ability_h"] -> reads t k name n -> n < N.of_nat (length ABILITIES_EN)) /\
  (reads t k "exp_growth" n -> n < 6) /\ (reads t k "gender_ratio" n -> In n gender_ratios).
Proof. exact values_ok. Qed.
Print Assumptions C83_values.

(** The species of generation 3 have the same gender ratio in every table, and (apart from
    Deoxys) the same base stats in all tables up to generation 5. *)
Theorem C83_species_agree : forall t count k, In (t, count) record_counts -> 1 <= k ->
  (k <= 386 -> forall n, reads T_E k "gender_ratio" n <-> reads t k "gender_ratio" n) /\
  (k <= 385 -> In t [T_RS; T_E; T_FR; T_LG; T_DP; T_PT; T_BW; T_B2W2] ->
     forall name n, In name stats -> (reads T_E k name n <-> reads t k name n)).
Proof.
  intros t count k H Hk. split.
  - intros Hl n. exact (gender_same t count k n H (conj Hk Hl)).
  - intros Hl Ht name n Hn. exact (stats_same t k name n Ht Hn (conj Hk Hl)).
Qed.
Print Assumptions C83_species_agree.

(** In the games with records for forms: every form of a species has a record of the table,
    and no record belongs to two species, or to two forms unless it is that of the species. *)
Theorem C83_forms : forall t first count, In (t, first) first_forms -> In (t, count) record_counts ->
  (forall k c form, k < first -> reads t k "form_count" c -> form < c ->
     exists n, form_record t k form n /\ n < count) /\
  (forall k k' form form' n, k < first -> k' < first ->
     form_record t k form n -> form_record t k' form' n -> k = k' /\ (n = k \/ form = form')).
Proof.
  intros t first count H H'. split.
  - intros k c form Hk R Hl. exact (form_exists t first count H H' k form c Hk R Hl).
  - intros k k' form form' n Hk Hk'. exact (form_owner t first count H H' k k' form form' n Hk Hk').
Qed.
Print Assumptions C83_forms.

(** What the encounter tables of Legends Arceus can spawn has a record in the game's table
    that is filled in, and a gender that the record allows if the slot sets one. *)
Theorem C83_la_slots_have_records : forall k d id a s,
  In k map_areas -> encounter_information_la k = Ok d -> In (id, a) d -> In s (al_slots a) ->
  exists n, form_record T_LA (la_species s) (la_form s) n /\
    (forall name, In name stats -> exists v, reads T_LA n name v /\ 0 < v) /\
    exists g, reads T_LA n "gender_ratio" g /\ (la_gender s = 255 \/ la_gender s < 2 /\ 0 < g < 254).
Proof. exact slots_recorded. Qed.
Print Assumptions C83_la_slots_have_records.

(** Basculin's third form in Legends Arceus, and the first species, which has no stats there. *)
Example C83_case :
  In (T_LA, 906) first_forms /\ In (T_LA, 1276) record_counts /\ 550 < 906 /\
  reads T_LA 550 "form_count" 3 /\ (exists n, form_record T_LA 550 2 n /\ reads T_LA n "hp" 70 /\ reads T_LA n "gender_ratio" 127) /\
  reads T_LA 1 "hp" 0 /\ reads T_SWSH 1 "hp" 45 /\ reads T_E 1 "gender_ratio" 31 /\
  (exists d a s, encounter_information_la CRIMSON_MIRELANDS = Ok d /\ In a d /\ In s (al_slots (snd a))).
Proof.
  assert (R : forall k name n, (k <? 1276) && match la_cell (la_column name) k with Some x => x =? n | None => false end = true -> reads T_LA k name n).
  { intros k name n H. apply andb_prop in H as [A B]. apply la_reads. split; [now apply N.ltb_lt|].
    destruct (la_cell (la_column name) k) as [x|]; [|discriminate B]. apply N.eqb_eq in B. now rewrite B. }
  split; [cbn; tauto|]. split; [cbn; tauto|]. split; [reflexivity|].
  split; [apply R; vm_compute; reflexivity|]. split.
  { eexists. split; [apply (la_record_ok 550 2); [reflexivity|vm_compute; reflexivity]|].
    split; apply R; vm_compute; reflexivity. }
  split; [apply R; vm_compute; reflexivity|].
  split; [eapply (proj2 (reads_value T_SWSH _ 1 "hp" 45 eq_refl)); split; [reflexivity|vm_compute; reflexivity]|].
  split; [eapply (proj2 (reads_value T_E _ 1 "gender_ratio" 31 eq_refl)); split; [reflexivity|vm_compute; reflexivity]|].
  exists (areas_of 2). destruct (areas_of 2) as [|a d] eqn:E; [exfalso; revert E; vm_compute; discriminate|].
  exists a. destruct (al_slots (snd a)) as [|s l] eqn:F.
  - exfalso. assert (X : match areas_of 2 with x :: _ => match al_slots (snd x) with [] => false | _ => true end | [] => false end = true) by (vm_compute; reflexivity).
    rewrite E, F in X. discriminate X.
  - exists s. split; [rewrite <- E; apply information; cbn; tauto|]. split; now left.
Qed.
