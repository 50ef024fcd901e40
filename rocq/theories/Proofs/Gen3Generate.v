(** [generate] of the generation 3 wild generator: independence of the advances. *)
From Coq Require Import NArith ZArith List Bool Lia.
From Verif Require Import Base.Word Base.WordLemmas Model.Lcrng32 Model.LcrngClasses
  Model.Gen3State Model.Gen3Area Model.Gen3Wild Spec.LcrngSpec Spec.Gen3Spec Spec.Gen3WildSpec
  Proofs.LcrngFinal Proofs.Gen3StateProofs Proofs.Gen3StateInit Proofs.Gen3AreaProofs
  Proofs.Gen3Draws Proofs.Gen3Pid Proofs.Gen3WildProofs.
Import ListNotations.
Ltac Zify.zify_post_hook ::= idtac.
Open Scope N_scope.

(** A state with its advance replaced. *)
Definition at_advance (a : N) (st : gstate) : gstate :=
  {| g_advance := a; g_pid := g_pid st; g_species := g_species st;
     g_form := g_form st; g_stats := g_stats st; g_ability_index := g_ability_index st;
     g_ivs := g_ivs st; g_ability := g_ability st; g_characteristic := g_characteristic st;
     g_gender := g_gender st; g_hidden_power := g_hidden_power st;
     g_hidden_power_strength := g_hidden_power_strength st;
     g_level := g_level st; g_nature := g_nature st; g_shiny := g_shiny st |}.

Lemma gstate_new_advance m junk a pid species form ivs ability level shiny info :
  gstate_new m junk a pid species form ivs ability level shiny info =
  rmap (at_advance (w32 a)) (gstate_new m junk 0 pid species form ivs ability level shiny info).
Proof.
  unfold gstate_new. cbv zeta.
  destruct (for_range_r 6 0 _ _) as [u|e]; reflexivity.
Qed.

Lemma finish_advance g junk info a species form level go pid :
  finish_state g junk info a species form level go pid =
  rmap (at_advance (w32 a)) (finish_state g junk info 0 species form level go pid).
Proof.
  unfold finish_state. cbv zeta.
  destruct (poke_next_u16 _) as [go1 iv1]. destruct (poke_next_u16 _) as [go2 iv2].
  apply gstate_new_advance.
Qed.

Definition set_adv (a : N) (r : bool * option gstate) : bool * option gstate :=
  (fst r, option_map (at_advance (w32 a)) (snd r)).

Lemma snd_sbind {A B} (x : N * res A) (f : N -> A -> N * res B) :
  snd (sbind x f) = match x with (s, Ok a) => snd (f s a) | (_, Raise e) => Raise e end.
Proof. destruct x as [s [a|e]]; reflexivity. Qed.

Lemma step_advance fuel junk g area mods rate safari rse charm0 s a :
  wild_step fuel junk g area mods rate safari rse charm0 s a =
  rmap (set_adv a) (wild_step fuel junk g area mods rate safari rse charm0 s 0).
Proof.
  unfold wild_step. cbv zeta. rewrite !snd_sbind.
  match goal with |- match ?c with _ => _ end = _ => destruct c as [go [skip|e]]; [|reflexivity] end.
  destruct skip; [reflexivity|]. rewrite !snd_sbind.
  destruct (calculate_hslot_lead _ _ _ _ _) as [go1 [sl|e]]; [|reflexivity]. rewrite !snd_sbind.
  destruct (calculate_level _ _ _) as [go2 [lv|e]]; [|reflexivity].
  destruct (nth_error _ _) as [info|]; [|reflexivity]. rewrite !snd_sbind.
  destruct (roll_cute_charm _ _ _ _) as [go3 [c|e]]; [|reflexivity]. rewrite !snd_sbind.
  destruct (roll_nature _ _) as [go4 [n|e]]; [|reflexivity].
  destruct (pid_search _ _ _ _ _ _ _ _) as [[go5 pid]|e]; [|reflexivity].
  cbn [snd]. rewrite finish_advance.
  destruct (finish_state _ _ _ 0 _ _ _ _ _) as [st|e]; reflexivity.
Qed.

(** The carried-over flag only matters to the flag itself. *)
Lemma step_charm fuel junk g area mods rate safari rse c1 c2 s a :
  (is_cute_charm g = false -> c1 = c2) ->
  rmap snd (wild_step fuel junk g area mods rate safari rse c1 s a) =
  rmap snd (wild_step fuel junk g area mods rate safari rse c2 s a).
Proof.
  intros Hc. unfold wild_step. cbv zeta. rewrite !snd_sbind.
  match goal with |- rmap snd (match ?c with _ => _ end) = _ => destruct c as [go [skip|e]]; [|reflexivity] end.
  destruct skip; [reflexivity|]. rewrite !snd_sbind.
  destruct (calculate_hslot_lead _ _ _ _ _) as [go1 [sl|e]]; [|reflexivity]. rewrite !snd_sbind.
  destruct (calculate_level _ _ _) as [go2 [lv|e]]; [|reflexivity].
  destruct (nth_error _ _) as [info|]; [|reflexivity]. rewrite !snd_sbind.
  assert (E : roll_cute_charm g info c1 go2 = roll_cute_charm g info c2 go2).
  { unfold roll_cute_charm. fold (is_cute_charm g). destruct (is_cute_charm g); [reflexivity|].
    now rewrite Hc. }
  rewrite E. reflexivity.
Qed.

(** With the rock smash roll out of the picture every step yields a state. *)
Lemma step_some fuel junk g area mods rate safari charm0 s a c r :
  needs_check g = false ->
  wild_step fuel junk g area mods rate safari (is_rse (w_game g)) charm0 s a = Ok (c, r) ->
  (exists st, r = Some st) /\ ((is_cute_charm g = false -> charm0 = false) -> is_cute_charm g = false -> c = false).
Proof.
  intros Hn. unfold wild_step. cbv zeta. fold (needs_check g). rewrite Hn. rewrite snd_sbind.
  rewrite !snd_sbind.
  destruct (calculate_hslot_lead _ _ _ _ _) as [go1 [sl|e]]; [|discriminate]. rewrite !snd_sbind.
  destruct (calculate_level _ _ _) as [go2 [lv|e]]; [|discriminate].
  destruct (nth_error _ _) as [info|]; [|discriminate]. rewrite !snd_sbind.
  destruct (roll_cute_charm _ _ _ _) as [go3 [c'|e]] eqn:Ec; [|discriminate]. rewrite !snd_sbind.
  destruct (roll_nature _ _) as [go4 [n|e]]; [|discriminate].
  destruct (pid_search _ _ _ _ _ _ _ _) as [[go5 pid]|e]; [|discriminate].
  cbn [snd]. destruct (finish_state _ _ _ _ _ _ _ _ _) as [st|e]; [|discriminate].
  cbn [rmap]. intros H. injection H as <- <-. split; [eauto|].
  intros H0 H1. unfold roll_cute_charm in Ec. fold (is_cute_charm g) in Ec. rewrite H1 in Ec.
  injection Ec as _ <-. now apply H0.
Qed.

Section Loop.
Variables (fuel : nat) (junk : list N) (g : wildgen) (area : area3) (mods : list slot3).
Variables (rate : N) (safari : bool).
Hypothesis Hn : needs_check g = false.

(** The state of a single advance. *)
Definition single (s : N) : res gstate :=
  match wild_step fuel junk g area mods rate safari (is_rse (w_game g)) false s 0 with
  | Ok (_, Some st) => Ok st
  | Ok (_, None) => Raise TypeError
  | Raise e => Raise e
  end.

(** The list of the first [n] results, or the first exception. *)
Fixpoint collect (n : nat) (adv k s : N) : res (list gstate) :=
  match n with
  | O => Ok []
  | S n' =>
      rbind (rmap (at_advance (w32 adv)) (single (steps k s)))
        (fun st => rmap (cons st) (collect n' (adv + 1) (k + 1) s))
  end.

Lemma loop_collect n : forall adv k s c, s < 2^32 -> (is_cute_charm g = false -> c = false) ->
  wild_loop fuel junk g area mods rate safari (is_rse (w_game g)) n adv (steps k s) c =
  collect n adv k s.
Proof.
  induction n as [|n IH]; intros adv k s c Hs Hc; [reflexivity|].
  cbn [wild_loop collect]. rewrite step_advance. unfold single.
  pose proof (step_charm fuel junk g area mods rate safari (is_rse (w_game g)) c false (steps k s) 0 Hc) as Es.
  destruct (wild_step fuel junk g area mods rate safari (is_rse (w_game g)) c (steps k s) 0) as [[c1 r1]|e1] eqn:E1;
  destruct (wild_step fuel junk g area mods rate safari (is_rse (w_game g)) false (steps k s) 0) as [[c2 r2]|e2] eqn:E2;
  cbn [rmap snd] in Es; try discriminate Es; injection Es as Es.
  - subst r2. destruct (step_some _ _ _ _ _ _ _ _ _ _ _ _ Hn E1) as [[st ->] Hc1].
    cbn [rmap rbind set_adv fst snd option_map].
    rewrite poke_next_steps by exact Hs.
    now rewrite IH by (try assumption; auto).
  - subst. reflexivity.
Qed.

Lemma collect_app m : forall n adv k s,
  collect (m + n) adv k s =
  rbind (collect m adv k s) (fun a => rmap (app a) (collect n (adv + N.of_nat m) (k + N.of_nat m) s)).
Proof.
  induction m as [|m IH]; intros n adv k s.
  - cbn [plus collect rbind]. rewrite !N.add_0_r. destruct (collect n adv k s); reflexivity.
  - cbn [plus collect]. destruct (single (steps k s)) as [st|e]; [|reflexivity].
    cbn [rmap rbind]. rewrite IH.
    replace (adv + N.of_nat (S m)) with (adv + 1 + N.of_nat m) by lia.
    replace (k + N.of_nat (S m)) with (k + 1 + N.of_nat m) by lia.
    destruct (collect m (adv + 1) (k + 1) s) as [a|e]; [|reflexivity]. cbn [rmap rbind].
    destruct (collect n _ _ s); reflexivity.
Qed.

Lemma collect_nth n : forall adv k s l, collect n adv k s = Ok l <->
  length l = n /\ forall i, (i < n)%nat -> exists st,
    single (steps (k + N.of_nat i) s) = Ok st /\
    nth_error l i = Some (at_advance (w32 (adv + N.of_nat i)) st).
Proof.
  induction n as [|n IH]; intros adv k s l.
  - cbn [collect]. split; [intros H; injection H as <-; split; [reflexivity|intros; lia]|].
    intros [H _]. destruct l; [reflexivity|discriminate].
  - cbn [collect]. destruct (single (steps k s)) as [st|e] eqn:E.
    + cbn [rmap rbind]. split.
      * intros H. destruct (collect n (adv + 1) (k + 1) s) as [t|e] eqn:Et; [|discriminate].
        cbn [rmap] in H. injection H as <-. apply IH in Et. destruct Et as [L G].
        split; [cbn; lia|]. intros i Hi. destruct i as [|i].
        -- rewrite !N.add_0_r. exists st. split; [exact E|reflexivity].
        -- destruct (G i ltac:(lia)) as (st' & G1 & G2). exists st'.
           replace (k + N.of_nat (S i)) with (k + 1 + N.of_nat i) by lia.
           replace (adv + N.of_nat (S i)) with (adv + 1 + N.of_nat i) by lia.
           split; [exact G1|exact G2].
      * intros [L G]. destruct l as [|st0 t]; [discriminate|].
        destruct (G 0%nat ltac:(lia)) as (st' & G1 & G2). cbn [N.of_nat] in G1, G2. rewrite N.add_0_r in G1.
        rewrite E in G1. injection G1 as <-. cbn [nth_error] in G2. injection G2 as ->.
        rewrite N.add_0_r.
        assert (Et : collect n (adv + 1) (k + 1) s = Ok t).
        { apply IH. split; [cbn in L; lia|]. intros i Hi.
          destruct (G (S i) ltac:(lia)) as (st' & G1 & G2). exists st'.
          replace (k + N.of_nat (S i)) with (k + 1 + N.of_nat i) in G1 by lia.
          replace (adv + N.of_nat (S i)) with (adv + 1 + N.of_nat i) in G2 by lia.
          split; [exact G1|exact G2]. }
        rewrite Et. reflexivity.
    + cbn [rmap rbind]. split; [discriminate|]. intros [_ G].
      destruct (G 0%nat ltac:(lia)) as (st' & G1 & _). cbn [N.of_nat] in G1. rewrite N.add_0_r in G1. congruence.
Qed.
End Loop.

Lemma generate_form fuel junk g seed delay initial max area :
  seed < 2^32 -> initial + delay < 2^32 ->
  wild_generate fuel junk g seed delay initial max area =
  rbind (get_modified_slots area (w_encounter g) (w_lead g) (w_game g) (w_table g)) (fun mods =>
    wild_loop fuel junk g area mods (rate16 g area)
      (is_rse_safari_zone area (w_game g)) (is_rse (w_game g)) (N.to_nat max) initial
      (steps (initial + delay) seed) false).
Proof.
  intros Hs Hk. unfold wild_generate.
  destruct (get_modified_slots _ _ _ _ _) as [mods|e]; [|reflexivity]. cbn [rbind]. cbv zeta.
  rewrite rse_eq. unfold lcrng32_new.
  destruct (c01_32 (p32_add PokeRNGMod) (p32_mult PokeRNGMod) seed (initial + delay) Hs Hk) as (E & _ & _).
  unfold poke_jump. replace (w32 seed) with seed by (symmetry; apply w32_small; exact Hs).
  rewrite E. reflexivity.
Qed.

Lemma generate_collect fuel junk g seed delay initial max area :
  seed < 2^32 -> initial + delay < 2^32 -> needs_check g = false ->
  wild_generate fuel junk g seed delay initial max area =
  rbind (get_modified_slots area (w_encounter g) (w_lead g) (w_game g) (w_table g)) (fun mods =>
    collect fuel junk g area mods (rate16 g area)
      (is_rse_safari_zone area (w_game g)) (N.to_nat max) initial (initial + delay) seed).
Proof.
  intros Hs Hk Hn. rewrite generate_form by assumption.
  destruct (get_modified_slots _ _ _ _ _) as [mods|e]; [|reflexivity]. cbn [rbind].
  apply loop_collect; auto.
Qed.

(** Ranges can be split. *)
Lemma generate_split fuel junk g seed delay initial m n area :
  seed < 2^32 -> initial + m + delay < 2^32 -> needs_check g = false ->
  wild_generate fuel junk g seed delay initial (m + n) area =
  rbind (wild_generate fuel junk g seed delay initial m area) (fun a =>
    rmap (app a) (wild_generate fuel junk g seed delay (initial + m) n area)).
Proof.
  intros Hs Hk Hn.
  rewrite !generate_collect by (try assumption; lia).
  destruct (get_modified_slots _ _ _ _ _) as [mods|e]; [|reflexivity]. cbn [rbind].
  rewrite N2Nat.inj_add, collect_app, N2Nat.id.
  replace (initial + delay + m) with (initial + m + delay) by lia. reflexivity.
Qed.

(** Each state is the one its own seed gives. *)
Lemma generate_each fuel junk g seed delay initial max area l :
  seed < 2^32 -> initial + delay + max < 2^32 -> needs_check g = false ->
  0 < max ->
  (wild_generate fuel junk g seed delay initial max area = Ok l <->
   length l = N.to_nat max /\
   forall i, i < max -> exists st,
     wild_generate fuel junk g (lcg_steps 32 0x41C64E6D 0x6073 (initial + i + delay) seed) 0 0 1 area = Ok [st] /\
     nth_error l (N.to_nat i) = Some (at_advance (initial + i) st)).
Proof.
  intros Hs Hk Hn Hmax.
  rewrite generate_collect by (try assumption; lia).
  change (2^32) with 4294967296 in *.
  assert (Hone : forall i, i < max -> forall st,
    wild_generate fuel junk g (lcg_steps 32 0x41C64E6D 0x6073 (initial + i + delay) seed) 0 0 1 area = Ok [at_advance 0 st] <->
    exists mods, get_modified_slots area (w_encounter g) (w_lead g) (w_game g) (w_table g) = Ok mods /\
      exists st0, single fuel junk g area mods (rate16 g area) (is_rse_safari_zone area (w_game g))
        (steps (initial + delay + i) seed) = Ok st0 /\ at_advance 0 st0 = at_advance 0 st).
  { intros i Hi st.
    assert (Hlt : steps (initial + delay + i) seed < 2^32) by now apply steps_lt.
    replace (initial + i + delay) with (initial + delay + i) by lia.
    change (lcg_steps 32 0x41C64E6D 0x6073 (initial + delay + i) seed) with (steps (initial + delay + i) seed).
    rewrite generate_collect by (try assumption; lia).
    destruct (get_modified_slots _ _ _ _ _) as [mods|e].
    2:{ cbn. split; [discriminate|]. intros (? & K & _). discriminate. }
    cbn [rbind]. change (N.to_nat 1) with 1%nat. cbn [collect]. rewrite N.add_0_r, steps_0.
    destruct (single _ _ _ _ _ _ _ _) as [st0|e] eqn:E0; cbn [rmap rbind].
    - split.
      + intros K. exists mods. split; [reflexivity|]. exists st0. split; [exact E0|].
        exact (f_equal (fun r => match r with Ok [a] => a | _ => at_advance 0 st0 end) K).
      + intros (m' & Km & st' & K1 & K2). injection Km as <-. rewrite E0 in K1. injection K1 as <-.
        f_equal. f_equal. exact K2.
    - split; [discriminate|]. intros (m' & Km & st' & K1 & K2). injection Km as <-. congruence. }
  split.
  - destruct (get_modified_slots _ _ _ _ _) as [mods|e] eqn:Em; [|discriminate]. cbn [rbind].
    intros H. apply collect_nth in H. destruct H as [L G]. split; [exact L|].
    intros i Hi. destruct (G (N.to_nat i) ltac:(lia)) as (st & G1 & G2). rewrite N2Nat.id in G1, G2.
    exists (at_advance 0 st). split.
    + apply (Hone i Hi). exists mods. split; [reflexivity|]. exists st. auto.
    + rewrite G2. rewrite w32_small by lia. reflexivity.
  - intros [L G].
    assert (A : forall i, i < max -> exists st, nth_error l (N.to_nat i) = Some (at_advance (initial + i) st) /\
      exists mods, get_modified_slots area (w_encounter g) (w_lead g) (w_game g) (w_table g) = Ok mods /\
      exists st0, single fuel junk g area mods (rate16 g area) (is_rse_safari_zone area (w_game g))
        (steps (initial + delay + i) seed) = Ok st0 /\ at_advance 0 st0 = at_advance 0 st).
    { intros i Hi. destruct (G i Hi) as (st & G1 & G2). exists st. split; [exact G2|].
      apply (Hone i Hi). rewrite G1. f_equal. f_equal.
      (* the advance of a state generated at advance 0 is 0 *)
      revert G1.
      assert (Hlt : steps (initial + i + delay) seed < 2^32) by now apply steps_lt.
      change (lcg_steps 32 0x41C64E6D 0x6073 (initial + i + delay) seed) with (steps (initial + i + delay) seed).
      rewrite generate_collect by (try assumption; lia).
      destruct (get_modified_slots _ _ _ _ _) as [mods|e]; [|discriminate].
      cbn [rbind]. change (N.to_nat 1) with 1%nat. cbn [collect].
      destruct (single _ _ _ _ _ _ _ _) as [st0|e]; [|discriminate]. cbn [rmap rbind].
      intros K.
      rewrite <- (f_equal (fun r => match r with Ok [a] => a | _ => at_advance 0 st0 end) K). reflexivity. }
    destruct (A 0 Hmax) as (_ & _ & mods & Em & _).
    rewrite Em. cbn [rbind]. apply collect_nth. split; [exact L|].
    intros i Hi. destruct (A (N.of_nat i) ltac:(lia)) as (st & A1 & mods' & Em' & st0 & A2 & A3).
    rewrite Em in Em'. injection Em' as <-. exists st0. split; [exact A2|].
    rewrite Nat2N.id in A1. rewrite A1. rewrite w32_small by lia.
    f_equal. apply (f_equal (at_advance (initial + N.of_nat i))) in A3. cbn in A3. symmetry. exact A3.
Qed.
