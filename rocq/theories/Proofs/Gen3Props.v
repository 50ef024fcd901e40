(** Forms of the generation 3 results as the property theorems state them. *)
From Coq Require Import NArith ZArith List Bool Lia.
From Verif Require Import Base.Word Base.WordLemmas Model.Float Model.Lcrng32 Model.LcrngClasses
  Model.Gen3State Model.Gen3Area Model.Gen3Wild Spec.LcrngSpec Spec.Gen3Spec Spec.Gen3WildSpec
  Proofs.Gen3StateProofs Proofs.Gen3StateInit Proofs.Gen3AreaProofs
  Proofs.Gen3Draws Proofs.Gen3Pid Proofs.Gen3WildProofs Proofs.Gen3Generate Proofs.Gen3Final.
Import ListNotations.
Ltac Zify.zify_post_hook ::= idtac.
Open Scope N_scope.

(** * Stats *)

Lemma stored_0 n level base ivs : stored_stat n level base ivs 0 = hp_stat (aget base 0) (aget ivs 0) level.
Proof. reflexivity. Qed.
Lemma stored_col n level base ivs i s : n < 25 -> i <> O -> N.of_nat i - 1 = column s ->
  stored_stat n level base ivs i = nature_stat n s (raw_stat (aget base i) (aget ivs i) level).
Proof.
  intros Hn Hi Hc. rewrite natures_columns by exact Hn. unfold stored_stat.
  destruct i; [contradiction|]. now rewrite Hc.
Qed.

Lemma stored_code pid level ivs info :
  map (stored_stat (pid mod 25) level
         [pi_hp info; pi_attack info; pi_defense info; pi_special_attack info;
          pi_special_defense info; pi_speed info] ivs) (seq 0 6) = code_stats pid level ivs info.
Proof.
  assert (Hn : pid mod 25 < 25) by (apply N.mod_lt; discriminate).
  cbn [map seq]. rewrite stored_0.
  rewrite (stored_col _ _ _ _ 1 Atk), (stored_col _ _ _ _ 2 Def), (stored_col _ _ _ _ 3 Spe),
    (stored_col _ _ _ _ 4 SpA), (stored_col _ _ _ _ 5 SpD) by (try assumption; try discriminate; reflexivity).
  reflexivity.
Qed.

Lemma info_args info : info_ok info ->
  pi_hp info < 256 /\ pi_attack info < 256 /\ pi_defense info < 256 /\
  pi_special_attack info < 256 /\ pi_special_defense info < 256 /\ pi_speed info < 256.
Proof. intros (H1 & H2 & H3 & H4 & H5 & H6 & _). repeat split; assumption. Qed.

Lemma ivs_bound ivs : Forall (fun v => v < 32) ivs -> forall i, aget ivs i < 256.
Proof.
  intros H i. unfold aget. destruct (nth_in_or_default i ivs 0) as [K|K]; [|rewrite K; lia].
  rewrite Forall_forall in H. specialize (H _ K). lia.
Qed.

Lemma new_stats m junk advance pid species form ivs ability level shiny info st :
  length junk = 6%nat -> pid < 2^32 -> level < 256 -> Forall (fun v => v < 32) ivs -> info_ok info ->
  gstate_new m junk advance pid species form ivs ability level shiny info = Ok st ->
  g_stats st = code_stats pid level ivs info.
Proof.
  intros Hj Hp Hl Hi Hinfo H. destruct (info_args info Hinfo) as (I1 & I2 & I3 & I4 & I5 & I6).
  destruct (gstate_new_ok m junk advance pid species form ivs ability level shiny info Hj Hp Hl
              (ivs_bound ivs Hi) I1 I2 I3 I4 I5 I6)
    as (st' & E & F1 & F2 & F3 & F4 & F5 & F6 & F7 & F8 & F9 & F10 & F11 & F12 & F13 & F14 & F15).
  rewrite E in H. injection H as <-. rewrite F15. apply stored_code.
Qed.

(** Natures that touch neither special stat nor the speed, and the neutral ones. *)
Lemma good_natures pid level ivs info : In (pid mod 25) [0; 1; 5; 6; 12; 18; 24] ->
  code_stats pid level ivs info = true_stats pid level ivs info.
Proof.
  unfold code_stats, true_stats. cbv zeta. generalize (pid mod 25). intros n Hn.
  repeat (destruct Hn as [<-|Hn]; [reflexivity|]). destruct Hn.
Qed.

Lemma new_char m junk advance pid species form ivs ability level shiny info :
  length junk = 6%nat -> pid < 2^32 -> level < 256 -> Forall (fun v => v < 32) ivs -> info_ok info ->
  exists st, gstate_new m junk advance pid species form ivs ability level shiny info = Ok st /\
    characteristic_is pid ivs (g_characteristic st) /\
    g_hidden_power st = hidden_power_type ivs /\ g_hidden_power st < 16 /\
    30 <= hidden_power_power ivs <= 70 /\
    match g_hidden_power_strength st with
    | AInt n => m = Numba /\ n = hidden_power_power ivs
    | AFloat f => m = NumPy /\ Z.to_N (f_trunc f) = hidden_power_power ivs
    end.
Proof.
  intros Hj Hp Hl Hi Hinfo. destruct (info_args info Hinfo) as (I1 & I2 & I3 & I4 & I5 & I6).
  destruct (gstate_new_ok m junk advance pid species form ivs ability level shiny info Hj Hp Hl
              (ivs_bound ivs Hi) I1 I2 I3 I4 I5 I6)
    as (st & E & F1 & F2 & F3 & F4 & F5 & F6 & F7 & F8 & F9 & F10 & F11 & _).
  exists st. split; [exact E|]. split; [exact F8|]. split; [exact F10|].
  split; [rewrite F10; apply hidden_power_lt|]. split; [apply power_range|].
  destruct (strength_ok (iv_bits ivs 1) (iv_bits_lt ivs 1)) as [S1 S2].
  rewrite F11. destruct m.
  - unfold strength_attr. split; [reflexivity|exact S2].
  - rewrite S1. split; reflexivity.
Qed.

(** * Slots and levels *)

Notation after k s := (lcg_steps 32 0x41C64E6D 0x6073 k s).

Lemma hslot_in area e s : area_shape area -> s < 2^32 ->
  exists sl, calculate_hslot area s e = (after 1 s, Ok sl) /\ In sl (slots_of area e).
Proof.
  intros Ha Hs. pose proof (hslot_steps area e 0 s Hs) as H. rewrite steps_0 in H.
  destruct (ordinary_some area e (rand_at s (0 + 1)) Ha) as (sl & E & I).
  rewrite E in H. exists sl. split; [exact H|exact I].
Qed.

Definition lead_gen (lead e : N) : wildgen := mkWild 0 e 0 lead 0 [].

Lemma hslot_lead_in area e lead mods s : area_shape area -> s < 2^32 ->
  N.of_nat (length mods) < 65536 ->
  exists sl, calculate_hslot_lead area s e lead mods =
      (after (if (lead =? Lead_MAGNET_PULL) || (lead =? Lead_STATIC) then 2 else 1) s, Ok sl) /\
    (In sl (slots_of area e) \/ In sl mods).
Proof.
  intros Ha Hs Hm.
  pose proof (hslot_lead_steps area (lead_gen lead e) mods 0 s Hs Hm) as H.
  cbn [w_encounter w_lead lead_gen] in H. rewrite steps_0 in H. rewrite H. clear H.
  unfold slot_choice. cbn [w_encounter w_lead lead_gen]. cbv zeta.
  destruct ((lead =? Lead_MAGNET_PULL) || (lead =? Lead_STATIC)).
  - destruct ((rand_at s (0 + 1) mod 2 =? 0) && negb (length mods =? 0)%nat) eqn:E.
    + apply andb_prop in E. destruct E as [_ E]. apply negb_true_iff, Nat.eqb_neq in E.
      destruct (nth_error mods (N.to_nat (rand_at s (0 + 2) mod N.of_nat (length mods)))) as [sl|] eqn:En.
      * exists sl. split; [reflexivity|]. right. eapply nth_error_In. exact En.
      * apply nth_error_None in En.
        pose proof (N.mod_lt (rand_at s (0 + 2)) (N.of_nat (length mods))). lia.
    + destruct (ordinary_some area e (rand_at s (0 + 1 + 1)) Ha) as (sl & E1 & I). unfold ordinary in E1.
      rewrite E1. exists sl. split; [reflexivity|]. now left.
  - destruct (ordinary_some area e (rand_at s (0 + 1)) Ha) as (sl & E1 & I). unfold ordinary in E1.
    rewrite E1. exists sl. split; [reflexivity|]. now left.
Qed.

Lemma level_plain sl s : slot_ok sl -> s < 2^32 ->
  let l := s_min_level sl + rand_at s 1 mod (s_max_level sl - s_min_level sl + 1) in
  calculate_level sl s false = (after 1 s, Ok l) /\ s_min_level sl <= l <= s_max_level sl.
Proof.
  intros Hsl Hs l.
  pose proof (level_steps (lead_gen Lead_NONE 0) sl 0 s Hs Hsl) as H.
  pose proof (level_choice_range (rand_at s) (lead_gen Lead_NONE 0) sl 0 Hsl) as R.
  rewrite steps_0 in H. split; [exact H|exact R].
Qed.

Lemma level_pressure sl s : slot_ok sl -> s < 2^32 ->
  let unmodified := s_min_level sl + rand_at s 1 mod (s_max_level sl - s_min_level sl + 1) in
  exists l, calculate_level sl s true = (after 2 s, Ok l) /\
    s_min_level sl <= l <= s_max_level sl /\
    (rand_at s 2 mod 2 = 0 -> l = s_max_level sl) /\
    (rand_at s 2 mod 2 <> 0 -> l = N.max (s_min_level sl) (unmodified - 1)).
Proof.
  intros Hsl Hs unm.
  pose proof (level_steps (lead_gen Lead_PRESSURE 0) sl 0 s Hs Hsl) as H.
  pose proof (level_choice_range (rand_at s) (lead_gen Lead_PRESSURE 0) sl 0 Hsl) as R.
  rewrite steps_0 in H. unfold level_choice in H, R. cbn [w_lead lead_gen] in H, R.
  change (Lead_PRESSURE =? Lead_PRESSURE) with true in H, R. cbv iota zeta in H, R. cbn [fst] in R.
  eexists. split; [exact H|]. split; [exact R|].
  change (0 + 2) with 2. change (0 + 1) with 1. split; intros E.
  - rewrite E. reflexivity.
  - apply N.eqb_neq in E. rewrite E. unfold unm.
    set (r := rand_at s 1 mod (s_max_level sl - s_min_level sl + 1)). clearbody r. lia.
Qed.

(** * Lead-modified slots *)

Lemma lead_type_actual lead game : lead <> Lead_STATIC -> lead_type lead game = attracted_type lead.
Proof.
  intros H. unfold lead_type, attracted_type.
  destruct (lead =? Lead_MAGNET_PULL); [reflexivity|].
  destruct (N.eqb_spec lead Lead_STATIC); [contradiction|reflexivity].
Qed.

Lemma modified_partial area e lead game table : covers table (slots_of area e) -> lead <> Lead_STATIC ->
  get_modified_slots area e lead game table =
    Ok (match attracted_type lead with
        | Some t => filter (has_type table t) (slots_of area e)
        | None => []
        end).
Proof.
  intros [H1 H2] Hl. rewrite modified_ok by assumption. now rewrite lead_type_actual.
Qed.

Lemma modified_static area e game table : covers table (slots_of area e) ->
  (exists k, N.testbit game k = true /\ (k < 5 \/ 8 <= k < 12)) ->
  get_modified_slots area e Lead_STATIC game table = Ok (filter (has_type table 13) (slots_of area e)).
Proof.
  intros [H1 H2] (k & Hk & Hr). rewrite modified_ok by assumption.
  unfold lead_type. cbn [N.eqb Pos.eqb Lead_STATIC Lead_MAGNET_PULL].
  match goal with |- context [N.land game ?m] => set (mask := m) end.
  assert (E : N.land game mask <> 0).
  { intros E. assert (T : N.testbit (N.land game mask) k = false) by (rewrite E; apply N.bits_0).
    rewrite N.land_spec, Hk in T. cbn [andb] in T.
    assert (K : k = 0 \/ k = 1 \/ k = 2 \/ k = 3 \/ k = 4 \/ k = 8 \/ k = 9 \/ k = 10 \/ k = 11) by lia.
    clear - T K. subst mask.
    repeat (destruct K as [->|K]; [discriminate T|]). subst k. discriminate T. }
  apply N.eqb_neq in E. rewrite E. reflexivity.
Qed.

(** * Generated states *)

Lemma described_stats g area mods safari s a st : described g area mods safari s a st ->
  exists d, drawn (rand_at s) g area mods safari d /\ state_of g a d st /\
    (In (d_slot d) (slots_of area (w_encounter g)) \/ In (d_slot d) mods) /\
    g_stats st = code_stats (d_pid d) (d_level d) (d_ivs d) (d_info d).
Proof.
  intros (d & D1 & D2 & D3 & D4). exists d. split; [exact D1|]. split; [exact D2|]. split; [exact D3|].
  rewrite D4. destruct D2 as (_ & _ & _ & _ & _ & _ & E1 & E2 & _).
  rewrite <- E1, E2. apply stored_code.
Qed.

Lemma generate_states fuel junk g seed delay initial max area l :
  length junk = 6%nat -> setting_ok g area ->
  seed < 2^32 -> initial + delay < 2^32 -> initial + max <= 2^32 ->
  wild_generate fuel junk g seed delay initial max area = Ok l ->
  forall i st, nth_error l (N.to_nat i) = Some st ->
  exists mods d,
    get_modified_slots area (w_encounter g) (w_lead g) (w_game g) (w_table g) = Ok mods /\
    drawn (rand_at (after (initial + i + delay) seed)) g area mods (is_rse_safari_zone area (w_game g)) d /\
    state_of g (initial + i) d st /\
    In (d_slot d) (slots_of area (w_encounter g)) /\
    g_stats st = code_stats (d_pid d) (d_level d) (d_ivs d) (d_info d).
Proof.
  intros Hj Hset Hs Hd Hm H i st Hi.
  destruct (generate_sound _ _ _ _ _ _ _ _ _ Hj Hset Hs Hd Hm H) as (_ & G & _).
  destruct (G i) as (st' & E & _ & D).
  { assert (nth_error l (N.to_nat i) <> None) as K by congruence. apply nth_error_Some in K. lia. }
  rewrite Hi in E. injection E as <-.
  apply described_stats in D. destruct D as (d & D1 & D2 & D3 & D4).
  destruct (preferred_ok g area Hset) as (P1 & P2 & _).
  exists (preferred g area), d. split; [exact P1|]. split; [exact D1|]. split; [exact D2|].
  split; [|exact D4]. destruct D3 as [D3|D3]; [exact D3|]. now apply P2.
Qed.

Lemma ivs_from_lt a b : Forall (fun v => v < 32) (ivs_from a b).
Proof. unfold ivs_from. repeat constructor; apply N.mod_lt; discriminate. Qed.

Lemma generate_coherent fuel junk g seed delay initial max area l :
  length junk = 6%nat -> setting_ok g area ->
  seed < 2^32 -> initial + delay < 2^32 -> initial + max <= 2^32 ->
  wild_generate fuel junk g seed delay initial max area = Ok l ->
  Forall (fun st =>
    exists sl info, In sl (slots_of area (w_encounter g)) /\
      nth_error (w_table g) (N.to_nat (g_species st)) = Some info /\
      s_species sl = g_species st + 2048 * g_form st /\
      s_min_level sl <= g_level st <= s_max_level sl /\
      g_pid st < 2^32 /\
      g_nature st = g_pid st mod 25 /\ g_ability st = g_pid st mod 2 /\
      g_ability_index st = (if g_ability st =? 0 then pi_ability_1 info else pi_ability_2 info) /\
      g_gender st = gender_code (gender_of (g_pid st) (pi_gender_ratio info)) /\
      g_shiny st = shiny_code (shiny_of (g_pid st) (w_tsv g)) /\
      (g_species st = 201 -> unown_letter (g_pid st) = g_form st) /\
      length (g_ivs st) = 6%nat /\ Forall (fun v => v < 32) (g_ivs st) /\
      characteristic_is (g_pid st) (g_ivs st) (g_characteristic st) /\
      g_hidden_power st = hidden_power_type (g_ivs st) /\
      g_hidden_power_strength st = AInt (hidden_power_power (g_ivs st))) l.
Proof.
  intros Hj Hset Hs Hd Hm H. apply Forall_forall. intros st Hin.
  apply In_nth_error in Hin. destruct Hin as (i & Hi).
  rewrite <- (Nat2N.id i) in Hi.
  destruct (generate_states _ _ _ _ _ _ _ _ _ Hj Hset Hs Hd Hm H (N.of_nat i) st Hi)
    as (mods & d & M1 & M2 & M3 & M4 & M5).
  destruct Hset as ((_ & Hslots) & _).
  assert (Hsl : slot_ok (d_slot d)).
  { specialize (Hslots (w_encounter g)). rewrite Forall_forall in Hslots. now apply Hslots. }
  destruct M2 as (_ & p1 & p2 & p3 & p4 & N1 & N2 & N3 & N4 & N5 & N6 & N7 & N8 & N9 & N10).
  destruct M3 as (S1 & S2 & S3 & S4 & S5 & S6 & S7 & S8 & S9 & S10 & S11 & S12 & S13 & S14 & S15).
  pose proof (level_choice_range (rand_at (after (initial + N.of_nat i + delay) seed)) g (d_slot d) p1 Hsl) as LR.
  rewrite N2 in LR. cbn [fst] in LR.
  exists (d_slot d), (d_info d).
  rewrite S2, S3, S4, S5, S6, S8, S9, S10, S11, S12, S14, S15.
  split; [exact M4|]. split; [exact N3|].
  split. { unfold species_of, form_of. rewrite N.add_comm. apply N.div_mod. discriminate. }
  split; [exact LR|].
  split. { rewrite N8. apply pid_at_lt. now apply steps_lt. }
  split; [reflexivity|]. split; [reflexivity|]. split; [reflexivity|]. split; [reflexivity|].
  split; [reflexivity|]. split; [apply N9|].
  cbv zeta in N10. rewrite N10 in *. split; [reflexivity|]. split; [apply ivs_from_lt|].
  split; [exact S13|]. split; reflexivity.
Qed.

(** * Termination *)

Lemma no_charm_satisfiable g area :
  w_lead g <> Lead_CUTE_CHARM_M -> w_lead g <> Lead_CUTE_CHARM_F ->
  Forall (fun sl => species_of sl = 201 -> form_of sl < 28) (slots_of area (w_encounter g)) ->
  all_satisfiable g area.
Proof.
  intros H1 H2 Hf sl info charm Hin _ Hc. rewrite Forall_forall in Hf. specialize (Hf sl Hin).
  assert (E : is_cute_charm g = false).
  { unfold is_cute_charm. apply N.eqb_neq in H1, H2. now rewrite H1, H2. }
  specialize (Hc E). subst charm. repeat split; try discriminate. exact Hf.
Qed.

Lemma generate_ends fuel junk g seed delay initial max area :
  length junk = 6%nat -> setting_ok g area ->
  Forall (fun sl => species_of sl = 201 -> form_of sl < 28) (slots_of area (w_encounter g)) ->
  w_lead g <> Lead_CUTE_CHARM_M -> w_lead g <> Lead_CUTE_CHARM_F ->
  2^31 <= N.of_nat fuel ->
  seed < 2^32 -> initial + delay < 2^32 -> initial + max <= 2^32 ->
  exists l, wild_generate fuel junk g seed delay initial max area = Ok l.
Proof. intros. apply generate_total; try assumption. now apply no_charm_satisfiable. Qed.

(** With the male Cute Charm lead, two charm rolls out of three never come to an end once
    an all-male species is rolled. *)
Lemma generate_hangs_slot fuel junk g seed delay initial max area slot info :
  length junk = 6%nat -> setting_ok g area ->
  w_lead g = Lead_CUTE_CHARM_M -> needs_check g = false ->
  seed < 2^32 -> initial + delay < 2^32 -> 0 < max ->
  let s := after (initial + delay) seed in
  nth_error (slots_of area (w_encounter g))
    (N.to_nat (slot_one_early (cumulative_of (w_encounter g)) (Z.of_N (rand_at s 1 mod 100)))) = Some slot ->
  nth_error (w_table g) (N.to_nat (species_of slot)) = Some info ->
  pi_gender_ratio info = 0 ->
  rand_at s 3 mod 3 <> 0 ->
  wild_generate fuel junk g seed delay initial max area = Raise OutOfFuel.
Proof.
  intros Hj Hset Hl Hn Hs Hd Hm s Hslot Hinfo Hr Hroll.
  rewrite generate_form by assumption.
  destruct (preferred_ok g area Hset) as (E & I & M1 & M2 & M3). rewrite E. cbn [rbind].
  destruct (N.to_nat max) as [|n] eqn:En; [lia|]. cbn [wild_loop].
  assert (Hk : steps (initial + delay) seed < 2^32) by now apply steps_lt.
  assert (Hi : initial < 2^32) by lia.
  destruct Hset as (A & T & _).
  destruct (step_to_search fuel junk g area (preferred g area) (is_rse_safari_zone area (w_game g))
              (steps (initial + delay) seed) initial Hk Hi Hj A M1 M2 T M3 false ltac:(reflexivity))
    as [[Ef _]|[Ef (sl & p1 & level & p2 & info' & charm & p3 & nature & p5 & E1 & E2 & E3 & E4 & E5 & E6 & E7 & E8 & E9 & E10 & E11 & E12 & E13)]].
  { unfold check_fails in Ef. rewrite Hn in Ef. discriminate. }
  rewrite E13.
  change (after (initial + delay) seed) with (steps (initial + delay) seed) in s.
  unfold slot_choice in E1. unfold after_check in E1. rewrite Hn in E1. cbv zeta in E1. rewrite Hl in E1.
  cbn [N.eqb Pos.eqb Lead_CUTE_CHARM_M Lead_MAGNET_PULL Lead_STATIC orb] in E1.
  apply pair_equal_spec in E1. destruct E1 as [E1 <-].
  change (0 + 1) with 1 in E1. fold s in E1. rewrite Hslot in E1. injection E1 as <-.
  rewrite Hinfo in E6. injection E6 as <-.
  assert (charm = true).
  { unfold level_choice in E4. cbv zeta in E4. rewrite Hl in E4.
    cbn [N.eqb Pos.eqb Lead_CUTE_CHARM_M Lead_PRESSURE orb] in E4.
    apply pair_equal_spec in E4. destruct E4 as [_ <-].
    unfold charm_choice in E8. unfold is_cute_charm in E8. rewrite Hl, Hr in E8.
    cbn [N.eqb Pos.eqb Lead_CUTE_CHARM_M Lead_CUTE_CHARM_F orb N.ltb N.compare andb] in E8.
    apply pair_equal_spec in E8. destruct E8 as [<- _].
    change (0 + 1 + 1 + 1) with 3. apply N.eqb_neq in Hroll. fold s. now rewrite Hroll. }
  subst charm. rewrite search_forever; [reflexivity|assumption|now apply form_lt|assumption|].
  intros (_ & _ & K). apply K; [reflexivity|rewrite Hl; discriminate|exact Hr].
Qed.
