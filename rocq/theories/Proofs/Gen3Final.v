(** [generate] of the generation 3 wild generator against the specification. *)
From Coq Require Import NArith ZArith List Bool Lia.
From Verif Require Import Base.Word Base.WordLemmas Model.Lcrng32 Model.LcrngClasses
  Model.Gen3State Model.Gen3Area Model.Gen3Wild Spec.LcrngSpec Spec.Gen3Spec Spec.Gen3WildSpec
  Proofs.Gen3StateProofs Proofs.Gen3StateInit Proofs.Gen3AreaProofs
  Proofs.Gen3Draws Proofs.Gen3Pid Proofs.Gen3WildProofs Proofs.Gen3Generate.
Import ListNotations.
Ltac Zify.zify_post_hook ::= idtac.
Open Scope N_scope.

Lemma filter_length_le {A} (f : A -> bool) l : (length (filter f l) <= length l)%nat.
Proof. induction l as [|a l IH]; cbn; [lia|]. destruct (f a); cbn; lia. Qed.

(** The preferred slots, as the code computes them. *)
Definition preferred (g : wildgen) (area : area3) : list slot3 :=
  match lead_type (w_lead g) (w_game g) with
  | Some t => filter (has_type (w_table g) t) (slots_of area (w_encounter g))
  | None => []
  end.

Lemma preferred_ok g area : setting_ok g area ->
  get_modified_slots area (w_encounter g) (w_lead g) (w_game g) (w_table g) = Ok (preferred g area) /\
  incl (preferred g area) (slots_of area (w_encounter g)) /\
  Forall slot_ok (preferred g area) /\
  N.of_nat (length (preferred g area)) < 65536 /\
  (forall sl, In sl (slots_of area (w_encounter g)) \/ In sl (preferred g area) ->
     species_of sl < N.of_nat (length (w_table g))).
Proof.
  intros ((Hsh & Hsl) & Htab & Hlen & Hcov).
  assert (I : incl (preferred g area) (slots_of area (w_encounter g))).
  { unfold preferred. destruct (lead_type _ _); [|easy]. intros sl H. apply filter_In in H. apply H. }
  split; [|split; [exact I|split; [|split]]].
  - apply modified_ok; assumption.
  - specialize (Hsl (w_encounter g)). rewrite Forall_forall in *. auto.
  - assert (L : (length (preferred g area) <= length (slots_of area (w_encounter g)))%nat).
    { unfold preferred. destruct (lead_type _ _); [|cbn; lia]. apply filter_length_le. }
    assert ((length (slots_of area (w_encounter g)) <= 12)%nat).
    { rewrite slots_length by exact Hsh. unfold cumulative_of.
      destruct (_ =? Encounter_OLD_ROD); [cbn; lia|]. destruct (_ =? Encounter_GOOD_ROD); [cbn; lia|].
      destruct (_ =? Encounter_SUPER_ROD); [cbn; lia|]. destruct (_ =? Encounter_ROCK_SMASH); [cbn; lia|].
      destruct (_ =? Encounter_SURFING); cbn; lia. }
    lia.
  - rewrite Forall_forall in Hcov. intros sl [K|K]; auto.
Qed.

Section Loop.
Variables (fuel : nat) (junk : list N) (g : wildgen) (area : area3).
Hypothesis Hjunk : length junk = 6%nat.
Hypothesis Hset : setting_ok g area.
Notation mods := (preferred g area).
Notation safari := (is_rse_safari_zone area (w_game g)).
Notation loop := (wild_loop fuel junk g area mods (rate16 g area) safari (is_rse (w_game g))).

(** The description of one state. *)
Definition good_state (s a : N) (st : gstate) : Prop :=
  described g area mods safari s a st.

Lemma stuck n : forall adv s c, s < 2^32 -> adv + N.of_nat n <= 2^32 ->
  (is_cute_charm g = false -> c = false) ->
  check_fails (rand_at s) g area = true -> loop n adv s c = Ok [].
Proof.
  destruct (preferred_ok g area Hset) as (_ & _ & M1 & M2 & M3). destruct Hset as (A & T & _).
  induction n as [|n IH]; intros adv s c Hs Ha Hc Hf; [reflexivity|].
  change (2^32) with 4294967296 in Ha.
  cbn [wild_loop].
  destruct (step_to_search fuel junk g area mods safari s adv Hs ltac:(change (2^32) with 4294967296; lia) Hjunk A M1 M2 T M3 c Hc)
    as [[_ E]|[E _]]; [|congruence].
  rewrite E. cbn [rbind]. apply IH; try assumption. change (2^32) with 4294967296. lia.
Qed.

Lemma loop_sound n : forall adv k s c l, s < 2^32 -> adv + N.of_nat n <= 2^32 ->
  (is_cute_charm g = false -> c = false) ->
  loop n adv (steps k s) c = Ok l ->
  (length l <= n)%nat /\
  (forall i, (i < length l)%nat -> exists st, nth_error l i = Some st /\
     check_fails (rand_at (steps (k + N.of_nat i) s)) g area = false /\
     good_state (steps (k + N.of_nat i) s) (adv + N.of_nat i) st) /\
  ((length l < n)%nat -> check_fails (rand_at (steps (k + N.of_nat (length l)) s)) g area = true).
Proof.
  destruct (preferred_ok g area Hset) as (_ & _ & M1 & M2 & M3). destruct Hset as (A & T & _).
  induction n as [|n IH]; intros adv k s c l Hs Ha Hc.
  { cbn. intros H. injection H as <-. cbn. repeat split; intros; lia. }
  change (2^32) with 4294967296 in Ha.
  assert (Hk : steps k s < 2^32) by now apply steps_lt.
  cbn [wild_loop].
  destruct (wild_step _ _ _ _ _ _ _ _ _ _ _) as [[c' r]|e] eqn:Es; [|discriminate].
  apply (step_sound fuel junk g area mods safari (steps k s) adv Hk ltac:(change (2^32) with 4294967296; lia) Hjunk A M1 M2 T M3) in Es; [|exact Hc].
  destruct Es as [Hc' Hr]. cbn [rbind]. destruct r as [st|].
  - rewrite poke_next_steps. destruct Hr as [Hf Hd].
    destruct (loop n (adv + 1) (steps (k + 1) s) c') as [t|e] eqn:El; [|discriminate].
    cbn [rmap]. intros H. injection H as <-.
    destruct (IH (adv + 1) (k + 1) s c' t Hs ltac:(change (2^32) with 4294967296; lia) Hc' El) as (I1 & I2 & I3).
    cbn [length]. split; [lia|]. split.
    + intros i Hi. destruct i as [|i].
      * exists st. cbn [N.of_nat]. rewrite !N.add_0_r. split; [reflexivity|]. split; assumption.
      * destruct (I2 i ltac:(lia)) as (st' & I4 & I5 & I6). exists st'.
        replace (k + N.of_nat (S i)) with (k + 1 + N.of_nat i) by lia.
        replace (adv + N.of_nat (S i)) with (adv + 1 + N.of_nat i) by lia.
        split; [exact I4|]. split; assumption.
    + intros Hl. replace (k + N.of_nat (S (length t))) with (k + 1 + N.of_nat (length t)) by lia.
      apply I3. lia.
  - rewrite stuck by (try assumption; change (2^32) with 4294967296; lia).
    intros H. injection H as <-. cbn [length N.of_nat]. rewrite N.add_0_r.
    split; [lia|]. split; [intros; lia|]. intros _. exact Hr.
Qed.

Definition all_satisfiable : Prop :=
  forall sl info charm, In sl (slots_of area (w_encounter g)) ->
    nth_error (w_table g) (N.to_nat (species_of sl)) = Some info ->
    (is_cute_charm g = false -> charm = false) ->
    satisfiable (w_lead g) (pi_gender_ratio info) (species_of sl) (form_of sl) charm.

Lemma loop_total n : forall adv k s c, s < 2^32 -> adv + N.of_nat n <= 2^32 ->
  2^31 <= N.of_nat fuel -> all_satisfiable ->
  (is_cute_charm g = false -> c = false) ->
  exists l, loop n adv (steps k s) c = Ok l.
Proof.
  destruct (preferred_ok g area Hset) as (_ & M0 & M1 & M2 & M3). destruct Hset as (A & T & _).
  induction n as [|n IH]; intros adv k s c Hs Ha Hfuel Hsat Hc.
  { exists []. reflexivity. }
  change (2^32) with 4294967296 in Ha.
  assert (Hk : steps k s < 2^32) by now apply steps_lt.
  destruct (step_total fuel junk g area mods safari (steps k s) adv Hk ltac:(change (2^32) with 4294967296; lia) Hjunk A M1 M2 T M3 c Hfuel Hc)
    as (c' & r & E).
  { intros sl info ch [H|H] Hi Hch; apply Hsat; auto. }
  cbn [wild_loop]. rewrite E. cbn [rbind].
  apply (step_sound fuel junk g area mods safari (steps k s) adv Hk ltac:(change (2^32) with 4294967296; lia) Hjunk A M1 M2 T M3) in E; [|exact Hc].
  destruct E as [Hc' Hr]. destruct r as [st|].
  - rewrite poke_next_steps.
    destruct (IH (adv + 1) (k + 1) s c' Hs ltac:(change (2^32) with 4294967296; lia) Hfuel Hsat Hc') as (l & El).
    rewrite El. cbn [rmap]. eauto.
  - exists []. apply stuck; try assumption. change (2^32) with 4294967296. lia.
Qed.
End Loop.

Lemma generate_sound fuel junk g seed delay initial max area l :
  length junk = 6%nat -> setting_ok g area ->
  seed < 2^32 -> initial + delay < 2^32 -> initial + max <= 2^32 ->
  wild_generate fuel junk g seed delay initial max area = Ok l ->
  let s i := steps (initial + i + delay) seed in
  N.of_nat (length l) <= max /\
  (forall i, i < N.of_nat (length l) -> exists st, nth_error l (N.to_nat i) = Some st /\
     check_fails (rand_at (s i)) g area = false /\ good_state g area (s i) (initial + i) st) /\
  (N.of_nat (length l) < max -> check_fails (rand_at (s (N.of_nat (length l)))) g area = true).
Proof.
  intros Hj Hset Hs Hd Hm H s.
  rewrite generate_form in H by assumption.
  destruct (preferred_ok g area Hset) as (E & _). rewrite E in H. cbn [rbind] in H.
  apply loop_sound in H; try assumption; [|rewrite N2Nat.id; exact Hm|reflexivity].
  destruct H as (H1 & H2 & H3). unfold s. split; [lia|]. split.
  - intros i Hi. destruct (H2 (N.to_nat i) ltac:(lia)) as (st & K). rewrite N2Nat.id in K. exists st.
    replace (initial + i + delay) with (initial + delay + i) by lia. exact K.
  - intros Hl. replace (initial + N.of_nat (length l) + delay) with (initial + delay + N.of_nat (length l)) by lia.
    apply H3. lia.
Qed.

Lemma generate_total fuel junk g seed delay initial max area :
  length junk = 6%nat -> setting_ok g area -> all_satisfiable g area ->
  2^31 <= N.of_nat fuel ->
  seed < 2^32 -> initial + delay < 2^32 -> initial + max <= 2^32 ->
  exists l, wild_generate fuel junk g seed delay initial max area = Ok l.
Proof.
  intros Hj Hset Hsat Hf Hs Hd Hm.
  rewrite generate_form by assumption.
  destruct (preferred_ok g area Hset) as (E & _). rewrite E. cbn [rbind].
  apply loop_total; try assumption. now rewrite N2Nat.id. reflexivity.
Qed.

(** * Cute Charm *)

(** The same generator with no lead. *)
Definition without_lead (g : wildgen) : wildgen :=
  {| w_method := w_method g; w_encounter := w_encounter g; w_game := w_game g;
     w_lead := Lead_NONE; w_tsv := w_tsv g; w_table := w_table g |}.

Definition two_genders (i : personal3) : Prop := 0 < pi_gender_ratio i < 254.

Lemma while_ext {S} (c1 c2 : S -> bool) (f : S -> S) : (forall s, c1 s = c2 s) ->
  forall fuel s, while_loop fuel c1 f s = while_loop fuel c2 f s.
Proof.
  intros H. induction fuel as [|n IH]; intros s; cbn; rewrite H; [reflexivity|].
  destruct (c2 s); [apply IH|reflexivity].
Qed.

Lemma step_no_charm fuel junk g area rate safari rse s a :
  is_cute_charm g = true -> Forall two_genders (w_table g) ->
  wild_step fuel junk g area [] rate safari rse false s a =
  wild_step fuel junk (without_lead g) area [] rate safari rse false s a.
Proof.
  intros Hc Hg. unfold wild_step. cbv zeta. cbn [w_encounter w_lead w_table without_lead].
  rewrite !snd_sbind.
  match goal with |- match ?c with _ => _ end = _ => destruct c as [go [skip|e]]; [|reflexivity] end.
  destruct skip; [reflexivity|]. rewrite !snd_sbind.
  assert (Hl : w_lead g = Lead_CUTE_CHARM_M \/ w_lead g = Lead_CUTE_CHARM_F).
  { apply orb_prop in Hc. destruct Hc as [K|K]; apply N.eqb_eq in K; auto. }
  assert (E1 : calculate_hslot_lead area go (w_encounter g) (w_lead g) [] =
               calculate_hslot_lead area go (w_encounter g) Lead_NONE []).
  { unfold calculate_hslot_lead. destruct Hl as [-> | ->]; reflexivity. }
  rewrite E1. clear E1.
  destruct (calculate_hslot_lead _ _ _ _ _) as [go1 [sl|e]]; [|reflexivity].
  rewrite !snd_sbind.
  assert (E2 : (w_lead g =? Lead_PRESSURE) = (Lead_NONE =? Lead_PRESSURE))
    by (destruct Hl as [-> | ->]; reflexivity).
  rewrite E2. destruct (calculate_level _ _ _) as [go2 [lv|e]]; [|reflexivity].
  destruct (nth_error (w_table g) _) as [info|] eqn:Ei; [|reflexivity]. rewrite !snd_sbind.
  assert (G : two_genders info).
  { rewrite Forall_forall in Hg. apply Hg. eapply nth_error_In. exact Ei. }
  unfold roll_cute_charm. fold (is_cute_charm g). rewrite Hc.
  destruct G as [G1 G2]. apply N.ltb_lt in G1, G2. rewrite G1, G2. cbn [andb].
  cbn [w_lead without_lead]. change ((Lead_NONE =? Lead_CUTE_CHARM_M) || (Lead_NONE =? Lead_CUTE_CHARM_F)) with false.
  cbv iota. rewrite !snd_sbind.
  assert (E3 : forall go, roll_nature g go = roll_nature (without_lead g) go).
  { intros go'. unfold roll_nature. cbn [w_lead without_lead]. destruct Hl as [-> | ->]; reflexivity. }
  rewrite E3. destruct (roll_nature _ _) as [go4 [n|e]]; [|reflexivity].
  assert (E4 : forall go, pid_search fuel g info n (N.land (s_species sl) 0x7FF) (N.shiftr (s_species sl) 11) false go =
     pid_search fuel (without_lead g) info n (N.land (s_species sl) 0x7FF) (N.shiftr (s_species sl) 11) false go).
  { intros go'. unfold pid_search. apply while_ext. reflexivity. }
  rewrite E4. destruct (pid_search _ _ _ _ _ _ _ _) as [[go5 pid]|e]; reflexivity.
Qed.

Lemma step_charm_false fuel junk g area mods rate safari rse c s a c' r :
  Forall two_genders (w_table g) -> c = false ->
  wild_step fuel junk g area mods rate safari rse c s a = Ok (c', r) -> c' = false.
Proof.
  intros Hg ->. unfold wild_step. cbv zeta. rewrite !snd_sbind.
  match goal with |- match ?c with _ => _ end = _ -> _ => destruct c as [go [skip|e]]; [|discriminate] end.
  destruct skip; [cbn; congruence|]. rewrite !snd_sbind.
  destruct (calculate_hslot_lead _ _ _ _ _) as [go1 [sl|e]]; [|discriminate]. rewrite !snd_sbind.
  destruct (calculate_level _ _ _) as [go2 [lv|e]]; [|discriminate].
  destruct (nth_error _ _) as [info|] eqn:Ei; [|discriminate]. rewrite !snd_sbind.
  assert (G : two_genders info).
  { rewrite Forall_forall in Hg. apply Hg. eapply nth_error_In. exact Ei. }
  unfold roll_cute_charm. destruct G as [G1 G2]. apply N.ltb_lt in G1, G2. rewrite G1, G2. cbn [andb].
  destruct ((w_lead g =? Lead_CUTE_CHARM_M) || (w_lead g =? Lead_CUTE_CHARM_F)); rewrite !snd_sbind;
  (destruct (roll_nature _ _) as [go4 [n|e]]; [|discriminate];
  destruct (pid_search _ _ _ _ _ _ _ _) as [[go5 pid]|e]; [|discriminate];
  cbn [snd]; destruct (finish_state _ _ _ _ _ _ _ _ _) as [st|e]; [|discriminate];
  cbn [rmap]; congruence).
Qed.

Lemma generate_no_charm fuel junk g seed delay initial max area :
  is_cute_charm g = true -> Forall two_genders (w_table g) ->
  wild_generate fuel junk g seed delay initial max area =
  wild_generate fuel junk (without_lead g) seed delay initial max area.
Proof.
  intros Hc Hg.
  assert (Hl : w_lead g = Lead_CUTE_CHARM_M \/ w_lead g = Lead_CUTE_CHARM_F).
  { apply orb_prop in Hc. destruct Hc as [K|K]; apply N.eqb_eq in K; auto. }
  unfold wild_generate. cbn [w_encounter w_lead w_table w_game without_lead].
  unfold get_modified_slots.
  assert (E1 : lead_type (w_lead g) (w_game g) = None) by (destruct Hl as [-> | ->]; reflexivity).
  assert (E2 : lead_type Lead_NONE (w_game g) = None) by reflexivity.
  rewrite E1, E2. cbn [rbind]. cbv zeta.
  destruct (poke_jump _ _) as [rng [x|e]]; [|reflexivity].
  generalize (N.to_nat max) initial rng. intros n.
  induction n as [|n IH]; intros a r; [reflexivity|].
  cbn [wild_loop]. rewrite <- step_no_charm by assumption.
  destruct (wild_step _ _ _ _ _ _ _ _ _ _ _) as [[c' o]|e] eqn:Es; [|reflexivity].
  apply step_charm_false in Es; [|assumption|reflexivity]. subst c'. cbn [rbind].
  destruct o; [|apply IH]. now rewrite IH.
Qed.
