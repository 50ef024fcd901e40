(** Games and encounters that the third-generation wild generator does not know. *)
From Coq Require Import String NArith ZArith List Bool Lia.
From Verif Require Import Base.Word Base.WordLemmas Model.Enums Model.Lcrng32 Model.LcrngClasses Spec.OtherSpec.
From Verif Require Import Model.Gen3State Model.Gen3Area Model.Gen3Wild Proofs.Gen3Generate Proofs.Gen3Final Proofs.SettingsProofs.
Import ListNotations.
Open Scope list_scope.
Open Scope N_scope.
Ltac Zify.zify_post_hook ::= idtac.

Lemma no_bits game k : (forall i, i < 5 -> N.testbit game i = false) -> k < 32 -> N.land (w8 game) k = 0.
Proof.
  intros H Hk. apply N.bits_inj. intros i. rewrite N.bits_0, N.land_spec.
  destruct (N.lt_ge_cases i 5) as [L|L].
  - unfold w8. change 256 with (2^8). rewrite N.mod_pow2_bits_low by lia. now rewrite H.
  - assert (T : N.testbit k i = false).
    { destruct (N.eq_dec k 0) as [->|Nk]; [apply N.bits_0|]. apply N.bits_above_log2.
      apply N.lt_le_trans with 5; [|exact L]. apply N.log2_lt_pow2; [lia|exact Hk]. }
    rewrite T. apply andb_false_r.
Qed.

Lemma other_games fuel junk t method encounter lead game tid sid seed delay initial max area :
  (forall i, i < 5 -> N.testbit game i = false) ->
  wild_generate fuel junk (wild_new t method encounter lead game tid sid) seed delay initial max area =
  wild_generate fuel junk (wild_new t method encounter lead Game_LEAF_GREEN tid sid) seed delay initial max area.
Proof.
  intros H.
  assert (E3 : N.land (w8 game) (N.lor Game_RUBY Game_SAPPHIRE) = 0) by (apply no_bits; [exact H|reflexivity]).
  assert (E4 : N.land (w8 game) Game_EMERALD = 0) by (apply no_bits; [exact H|reflexivity]).
  assert (E8 : N.land (w8 game) Game_FIRE_RED = 0) by (apply no_bits; [exact H|reflexivity]).
  assert (E7 : N.land (w8 game) (N.lor (N.lor Game_RUBY Game_SAPPHIRE) Game_EMERALD) = 0) by (apply no_bits; [exact H|reflexivity]).
  assert (Hl : w_lead (wild_new t method encounter lead game tid sid) = w_lead (wild_new t method encounter lead Game_LEAF_GREEN tid sid)).
  { cbn [w_lead wild_new]. rewrite E4. reflexivity. }
  assert (Ht : w_table (wild_new t method encounter lead game tid sid) = w_table (wild_new t method encounter lead Game_LEAF_GREEN tid sid)).
  { cbn [w_table wild_new]. unfold get_info_table_3. rewrite E3, E4, E8. reflexivity. }
  assert (E := generate_same (fun st => st) (fun st => st) (wild_new t method encounter lead game tid sid)
    (wild_new t method encounter lead Game_LEAF_GREEN tid sid) fuel junk seed delay initial max area eq_refl Hl Ht).
  specialize (E ltac:(intros; reflexivity)).
  assert (X : rmap (map (fun st : gstate => st)) (wild_generate fuel junk (wild_new t method encounter lead game tid sid) seed delay initial max area) =
    rmap (map (fun st => st)) (wild_generate fuel junk (wild_new t method encounter lead Game_LEAF_GREEN tid sid) seed delay initial max area)).
  { apply E; clear E.
    - rewrite Hl. reflexivity.
    - cbn [w_game wild_new]. unfold is_rse_safari_zone. rewrite E3, E4. reflexivity.
    - cbn [w_game wild_new]. rewrite E7. reflexivity. }
  clear E. revert X. generalize (wild_generate fuel junk (wild_new t method encounter lead game tid sid) seed delay initial max area).
  generalize (wild_generate fuel junk (wild_new t method encounter lead Game_LEAF_GREEN tid sid) seed delay initial max area).
  intros [l|e] [l'|e'] X; cbn [rmap] in X; try discriminate X; injection X as X; rewrite ?map_id in X; now rewrite X.
Qed.

(** ** other encounters *)
Definition not_own (e : N) : Prop := (e =? 3) = false /\ (e =? 4) = false /\ (e =? 6) = false /\ (e =? 7) = false /\ (e =? 8) = false.
Lemma slot_other area go e lead mods : not_own e ->
  calculate_hslot_lead area go e lead mods = calculate_hslot_lead area go 0 lead mods.
Proof.
  intros (E3 & E4 & E6 & E7 & E8).
  assert (C : forall s, calculate_hslot area s e = calculate_hslot area s 0).
  { intros s. unfold calculate_hslot, Encounter_OLD_ROD, Encounter_GOOD_ROD, Encounter_SUPER_ROD, Encounter_ROCK_SMASH, Encounter_SURFING.
    rewrite E3, E4, E6, E7, E8. reflexivity. }
  unfold calculate_hslot_lead. rewrite C. destruct (_ || _); [|reflexivity].
  destruct (rand_2 go) as [s [r|x]]; cbn [sbind]; [|reflexivity]. now rewrite C.
Qed.
Lemma mods_other area e lead game table : not_own e ->
  get_modified_slots area e lead game table = get_modified_slots area 0 lead game table.
Proof.
  intros (E3 & E4 & E6 & E7 & E8). unfold get_modified_slots, Encounter_OLD_ROD, Encounter_GOOD_ROD, Encounter_SUPER_ROD, Encounter_ROCK_SMASH, Encounter_SURFING.
  rewrite E3, E4, E6, E7, E8. reflexivity.
Qed.
Section Enc.
Variables (fuel : nat) (junk : list N) (g g' : wildgen).
Hypothesis He : not_own (w_encounter g).
Hypothesis He' : w_encounter g' = 0.
Hypothesis Hm : w_method g = w_method g'.
Hypothesis Hl : w_lead g = w_lead g'.
Hypothesis Hv : w_tsv g = w_tsv g'.
Hypothesis Ht : w_table g = w_table g'.
Hypothesis Hg : w_game g = w_game g'.
Lemma step_enc area mods rate rate' safari rse c s a :
  wild_step fuel junk g area mods rate safari rse c s a = wild_step fuel junk g' area mods rate' safari rse c s a.
Proof.
  unfold wild_step. cbv zeta. unfold Encounter_ROCK_SMASH at 1 2. pose proof He as (E3 & _). rewrite E3, He'.
  change (0 =? 3) with false. rewrite andb_false_r. cbn [sbind snd]. rewrite (slot_other area _ _ _ _ He), Hl, Ht.
  rewrite !snd_sbind.
  destruct (calculate_hslot_lead _ _ _ _ _) as [go1 [sl|e]]; [|reflexivity]. rewrite !snd_sbind.
  destruct (calculate_level _ _ _) as [go2 [lv|e]]; [|reflexivity].
  destruct (nth_error _ _) as [info|]; [|reflexivity]. rewrite !snd_sbind.
  replace (roll_cute_charm g info c go2) with (roll_cute_charm g' info c go2) by (unfold roll_cute_charm; now rewrite Hl).
  destruct (roll_cute_charm _ _ _ _) as [go3 [c'|e]]; [|reflexivity]. rewrite !snd_sbind.
  assert (Hn : forall x, roll_nature g x = roll_nature g' x) by (intros x; unfold roll_nature; now rewrite Hl).
  rewrite Hn. destruct (roll_nature _ _) as [go4 [n|e]]; [|reflexivity].
  assert (Hp : forall n sp fo x y, pid_search fuel g info n sp fo x y = pid_search fuel g' info n sp fo x y).
  { intros. unfold pid_search, pid_rejected, cute_charm_check. now rewrite Hl. }
  rewrite Hp. destruct (pid_search _ _ _ _ _ _ _ _) as [[go5 pid]|e]; [|reflexivity].
  assert (Hf : forall ad sp fo le go pi, finish_state g junk info ad sp fo le go pi = finish_state g' junk info ad sp fo le go pi).
  { intros. unfold finish_state. rewrite Hm, Hv. reflexivity. }
  now rewrite Hf.
Qed.
Lemma loop_enc area mods rate rate' safari rse n : forall a s c,
  wild_loop fuel junk g area mods rate safari rse n a s c = wild_loop fuel junk g' area mods rate' safari rse n a s c.
Proof.
  induction n as [|n IH]; intros a s c; [reflexivity|]. cbn [wild_loop]. rewrite (step_enc area mods rate rate').
  destruct (wild_step _ _ _ _ _ _ _ _ _ _ _) as [[c1 [st|]]|e]; cbn [rbind]; [|apply IH|reflexivity]. now rewrite IH.
Qed.
Lemma generate_enc seed delay initial max area :
  wild_generate fuel junk g seed delay initial max area = wild_generate fuel junk g' seed delay initial max area.
Proof.
  unfold wild_generate. rewrite (mods_other area _ _ _ _ He), He', Hl, Hg, Ht.
  destruct (get_modified_slots _ _ _ _ _) as [mods|e]; cbn [rbind]; [|reflexivity].
  destruct (poke_jump _ _) as [rng [u|e]]; [|reflexivity]. apply loop_enc.
Qed.
End Enc.
Lemma other_encounters fuel junk t method encounter lead game tid sid seed delay initial max area :
  encounter < 256 -> ~ In encounter [3; 4; 6; 7; 8] ->
  wild_generate fuel junk (wild_new t method encounter lead game tid sid) seed delay initial max area =
  wild_generate fuel junk (wild_new t method Encounter_GRASS lead game tid sid) seed delay initial max area.
Proof.
  intros L N. apply generate_enc; try reflexivity. cbn [w_encounter wild_new].
  assert (E : w8 encounter = encounter) by (unfold w8; now apply N.mod_small). rewrite E.
  unfold not_own. rewrite !N.eqb_neq. cbn [In] in N. repeat split; intros K; apply N; rewrite K; tauto.
Qed.

(** ** members of the enums *)
Lemma named (name : string) known : existsb (String.eqb name) known = true -> In name known.
Proof. intros E. apply existsb_exists in E. destruct E as (x & Hx & Ex). apply String.eqb_eq in Ex. now rewrite Ex. Qed.
Lemma members_other game : outside Game games_3 game -> forall i, i < 5 -> N.testbit game i = false.
Proof.
  intros (name & Hin & Hno) i Hi.
  assert (F : forallb (fun m => existsb (String.eqb (fst m)) games_3 || (N.land (snd m) 31 =? 0)) Game = true) by (vm_compute; exact eq_refl).
  rewrite forallb_forall in F. specialize (F _ Hin). cbn [fst snd] in F. apply orb_prop in F. destruct F as [E|E].
  - exfalso. apply Hno. exact (named _ _ E).
  - apply N.eqb_eq in E. assert (B : N.testbit (N.land game 31) i = false) by (rewrite E; apply N.bits_0).
    rewrite N.land_spec in B. change 31 with (N.ones 5) in B. rewrite N.ones_spec_low in B by exact Hi. now rewrite andb_true_r in B.
Qed.
Lemma outside_is_grass fuel junk t method encounter lead game tid sid seed delay initial max area :
  outside Encounter encounters_3 encounter ->
  wild_generate fuel junk (wild_new t method encounter lead game tid sid) seed delay initial max area =
  wild_generate fuel junk (wild_new t method Encounter_GRASS lead game tid sid) seed delay initial max area.
Proof.
  intros (name & Hin & Hno).
  assert (F : forallb (fun m => existsb (String.eqb (fst m)) encounters_3 ||
    ((snd m <? 256) && negb (existsb (N.eqb (snd m)) [3; 4; 6; 7; 8]))) Encounter = true) by (vm_compute; exact eq_refl).
  rewrite forallb_forall in F. specialize (F _ Hin). cbn [fst snd] in F. apply orb_prop in F. destruct F as [E|E].
  - exfalso. apply Hno. exact (named _ _ E).
  - apply andb_prop in E. destruct E as [E1 E2]. apply other_encounters; [apply N.ltb_lt; exact E1|].
    intros K. apply negb_true_iff in E2. assert (T : existsb (N.eqb encounter) [3; 4; 6; 7; 8] = true).
    { apply existsb_exists. exists encounter. split; [exact K|apply N.eqb_refl]. }
    rewrite T in E2. discriminate E2.
Qed.

(** ** other methods *)
Lemma map_same {A} (r r' : res (list A)) : rmap (map (fun st => st)) r = rmap (map (fun st => st)) r' -> r = r'.
Proof. destruct r, r'; cbn [rmap]; intros X; try discriminate X; injection X as X; rewrite ?map_id in X; now rewrite X. Qed.
Lemma other_methods fuel junk t method encounter lead game tid sid seed delay initial max area :
  outside Method methods_3 method ->
  wild_generate fuel junk (wild_new t method encounter lead game tid sid) seed delay initial max area =
  wild_generate fuel junk (wild_new t 1 encounter lead game tid sid) seed delay initial max area.
Proof.
  intros (name & Hin & Hno).
  assert (F : forallb (fun m => existsb (String.eqb (fst m)) methods_3 ||
    ((snd m <? 256) && negb (snd m =? 3) && negb (snd m =? 4))) Method = true) by (vm_compute; exact eq_refl).
  rewrite forallb_forall in F. specialize (F _ Hin). cbn [fst snd] in F. apply orb_prop in F. destruct F as [E|E].
  { exfalso. apply Hno. exact (named _ _ E). }
  apply andb_prop in E. destruct E as [E E4]. apply andb_prop in E. destruct E as [E0 E3].
  apply N.ltb_lt in E0. apply negb_true_iff in E3. apply negb_true_iff in E4.
  assert (W : w8 method = method) by (unfold w8; now apply N.mod_small).
  apply map_same. apply generate_same; try reflexivity.
  intros. unfold finish_state. cbn [w_method wild_new w_tsv]. rewrite W. unfold Method_METHOD_2, Method_METHOD_4. rewrite E3, E4. reflexivity.
Qed.

(** ** other leads *)
Lemma matching_error slots t table e : matching_slots slots t table = Raise e -> e = IndexError.
Proof.
  induction slots as [|s slots IH]; cbn [matching_slots]; [discriminate|].
  destruct (nth_error _ _); [|intros H; now injection H].
  destruct (matching_slots slots t table); cbn [rmap]; [discriminate|]. intros H. injection H as ->. now apply IH.
Qed.
Lemma modified_error area e lead game table x : get_modified_slots area e lead game table = Raise x -> x = IndexError.
Proof.
  unfold get_modified_slots. destruct (lead_type lead game); [|discriminate].
  repeat (match goal with |- context [if ?b then _ else _] => destruct b end; [apply matching_error|]). apply matching_error.
Qed.
Lemma other_leads fuel junk t method encounter lead game tid sid seed delay initial max area :
  outside Lead leads_3 lead -> 24 < lead ->
  wild_generate fuel junk (wild_new t method encounter lead game tid sid) seed delay initial max area =
  wild_generate fuel junk (wild_new t method encounter Lead_NONE game tid sid) seed delay initial max area \/
  (lead < 32 /\ wild_generate fuel junk (wild_new t method encounter lead game tid sid) seed delay initial max area = Raise IndexError).
Proof.
  intros (name & Hin & Hno) L.
  assert (F : forallb (fun m => existsb (String.eqb (fst m)) leads_3 || (snd m <=? 24) ||
    ((28 <? snd m) && (snd m <? 256) && negb (snd m =? 32))) Lead = true) by (vm_compute; exact eq_refl).
  rewrite forallb_forall in F. specialize (F _ Hin). cbn [fst snd] in F. apply orb_prop in F. destruct F as [E|E].
  { exfalso. apply orb_prop in E. destruct E as [E|E]; [apply Hno; exact (named _ _ E)|]. apply N.leb_le in E. lia. }
  apply andb_prop in E. destruct E as [E E3]. apply andb_prop in E. destruct E as [E1 E2].
  apply N.ltb_lt in E1. apply N.ltb_lt in E2. apply negb_true_iff, N.eqb_neq in E3. clear Hin Hno name.
  set (g := wild_new t method encounter lead game tid sid). set (g' := wild_new t method encounter Lead_NONE game tid sid).
  assert (W : w_lead g = lead \/ w_lead g = Lead_NONE).
  { unfold g. cbn [w_lead wild_new]. destruct (negb _); [left; unfold w8; now apply N.mod_small|right; reflexivity]. }
  assert (W' : w_lead g' = Lead_NONE) by (unfold g'; cbn [w_lead wild_new]; destruct (negb _); reflexivity).
  destruct (get_modified_slots area (w_encounter g) (w_lead g) (w_game g) (w_table g)) as [mods|x] eqn:M.
  - left. apply map_same.
    assert (B : forall k, k <= 28 \/ k = 32 -> (w_lead g =? k) = false /\ (w_lead g' =? k) = false).
    { intros k Hk. rewrite W', !N.eqb_neq. unfold Lead_NONE in *. destruct W as [-> | ->]; lia. }
    assert (C : (w_lead g <=? 24) = false /\ (w_lead g' <=? 24) = false).
    { rewrite W', !N.leb_gt. unfold Lead_NONE in *. destruct W as [-> | ->]; lia. }
    unfold Lead_NONE in *.
    destruct (B 25 ltac:(lia)) as [B1 B1']. destruct (B 26 ltac:(lia)) as [B2 B2']. destruct (B 27 ltac:(lia)) as [B3 B3'].
    destruct (B 28 ltac:(lia)) as [B4 B4']. destruct (B 32 ltac:(lia)) as [B5 B5']. destruct C as [C C'].
    apply (generate_pair (fun st => st) (fun st => st) g g' fuel junk eq_refl) with (mods := mods) (mods' := []).
    + intros go. unfold roll_nature, Lead_SYNCHRONIZE_QUIRKY. now rewrite C, C'.
    + intros. unfold roll_cute_charm, Lead_CUTE_CHARM_M, Lead_CUTE_CHARM_F. now rewrite B1, B1', B2, B2'.
    + unfold Lead_CUTE_CHARM_F. now rewrite B1, B1'.
    + unfold Lead_PRESSURE. now rewrite B5, B5'.
    + reflexivity.
    + intros. reflexivity.
    + intros go. unfold calculate_hslot_lead, Lead_MAGNET_PULL, Lead_STATIC. now rewrite B3, B3', B4, B4'.
    + exact M.
    + rewrite W'. reflexivity.
    + reflexivity.
    + reflexivity.
  - destruct W as [W|W]; [|rewrite W in M; discriminate M].
    right. split.
    + destruct (N.lt_ge_cases lead 32) as [G|G]; [exact G|]. exfalso. rewrite W in M. unfold get_modified_slots, lead_type in M.
      unfold Lead_MAGNET_PULL, Lead_STATIC, Lead_HARVEST, Lead_FLASH_FIRE, Lead_STORM_DRAIN in M.
      assert (Q : forall k, k < 32 -> (lead =? k) = false) by (intros k Hk; apply N.eqb_neq; lia).
      rewrite !Q in M by reflexivity. discriminate M.
    + unfold wild_generate. rewrite M. cbn [rbind]. f_equal. exact (modified_error _ _ _ _ _ _ M).
Qed.
