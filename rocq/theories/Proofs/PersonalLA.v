(** The slots of Legends Arceus have personal records. *)
From Coq Require Import NArith Arith String List Bool Lia.
From Verif Require Import Base.Word Model.Personal Model.PersonalLayouts Model.PersLA Model.EncounterLA Model.BundledLA Model.BundledPersonal
  Spec.PersonalTableSpec Proofs.PersonalTableFast Proofs.PersonalTableProofs Proofs.BundledProofsLA.
Import ListNotations.
Open Scope string_scope.
Open Scope list_scope.
Open Scope N_scope.

Definition la_info : info := mkInfo PersonalInfo8LA la_trie 1276 176.
Section Cells.
Variables (ci cc cg : option (N * dtype)) (cs : list (option (N * dtype))).
Definition la_cell (c : option (N * dtype)) (k : N) : option N := cell la_trie 176 c k.
Definition la_record (species form : N) : option N :=
  if form =? 0 then Some species
  else match la_cell cc species, la_cell ci species with
       | Some c, Some i => if form <? c then Some (if i =? 0 then species else i + form - 1) else None
       | _, _ => None
       end.
Definition positive_cell (n : N) (c : option (N * dtype)) : bool :=
  match la_cell c n with Some v => 0 <? v | None => false end.
Definition slot_recorded (s : slotLA) : bool :=
  (la_species s <? 1276) &&
  match la_record (la_species s) (la_form s) with
  | Some n => (n <? 1276) && forallb (positive_cell n) cs &&
      match la_cell cg n with
      | Some g => (la_gender s =? 255) || ((la_gender s <? 2) && (0 <? g) && (g <? 254))
      | None => false
      end
  | None => false
  end.
End Cells.
Definition la_column (name : string) : option (N * dtype) := column PersonalInfo8LA name.
Definition area_recorded (d : list (N * areaLA)) : bool :=
  let ci := la_column "form_stats_index" in let cc := la_column "form_count" in
  let cg := la_column "gender_ratio" in let cs := map la_column stats in
  forallb (fun x => forallb (slot_recorded ci cc cg cs) (al_slots (snd x))) d.
Lemma recorded k : In k map_areas -> area_recorded (areas_of k) = true.
Proof. revert k. apply map_cases; vm_cast_no_check (eq_refl true). Qed.

Lemma la_reads k name n : reads T_LA k name n <-> k < 1276 /\ la_cell (la_column name) k = Some n.
Proof. exact (reads_value T_LA la_info k name n eq_refl). Qed.
Lemma la_record_ok species form n : species < 1276 ->
  la_record (la_column "form_stats_index") (la_column "form_count") species form = Some n -> form_record T_LA species form n.
Proof.
  unfold la_record. intros L H. destruct (N.eqb_spec form 0) as [->|F].
  - injection H as <-. now constructor.
  - destruct (la_cell (la_column "form_count") species) as [c|] eqn:C; [|discriminate H].
    destruct (la_cell (la_column "form_stats_index") species) as [i|] eqn:I; [|discriminate H].
    destruct (N.ltb_spec form c) as [Hl|]; [|discriminate H]. injection H as <-.
    assert (RC : reads T_LA species "form_count" c) by (apply la_reads; now split).
    assert (RI : reads T_LA species "form_stats_index" i) by (apply la_reads; now split).
    destruct (N.eqb_spec i 0) as [->|Hi].
    + exact (form_same _ _ _ c RC Hl RI).
    + exact (form_own _ _ _ c i F RC Hl RI Hi).
Qed.
Lemma slots_recorded k d id a s : In k map_areas -> encounter_information_la k = Ok d -> In (id, a) d -> In s (al_slots a) ->
  exists n, form_record T_LA (la_species s) (la_form s) n /\
    (forall name, In name stats -> exists v, reads T_LA n name v /\ 0 < v) /\
    exists g, reads T_LA n "gender_ratio" g /\ (la_gender s = 255 \/ la_gender s < 2 /\ 0 < g < 254).
Proof.
  intros Hk E Ha Hs. rewrite (information k Hk) in E. assert (X : areas_of k = d) by (now injection E).
  rewrite <- X in Ha. pose proof (recorded k Hk) as R. unfold area_recorded in R. cbv zeta in R.
  rewrite forallb_forall in R. specialize (R _ Ha). cbv beta in R. cbn [snd] in R. rewrite forallb_forall in R. specialize (R _ Hs).
  unfold slot_recorded in R. apply andb_prop in R as [R0 R]. apply N.ltb_lt in R0.
  destruct (la_record _ _ (la_species s) (la_form s)) as [n|] eqn:En; [|discriminate R].
  exists n. split; [exact (la_record_ok _ _ _ R0 En)|]. apply andb_prop in R as [R R2]. apply andb_prop in R as [R1 R].
  apply N.ltb_lt in R1. split.
  - intros name Hn. rewrite forallb_forall in R. specialize (R _ (in_map la_column _ _ Hn)). unfold positive_cell in R.
    destruct (la_cell (la_column name) n) as [v|] eqn:V; [|discriminate R]. exists v. split; [apply la_reads; now split|now apply N.ltb_lt].
  - destruct (la_cell (la_column "gender_ratio") n) as [g|] eqn:G; [|discriminate R2]. exists g. split; [apply la_reads; now split|].
    apply orb_prop in R2 as [R2|R2]; [left; now apply N.eqb_eq|right].
    apply andb_prop in R2 as [R2 A]. apply andb_prop in R2 as [B C]. apply N.ltb_lt in A, B, C. auto.
Qed.
