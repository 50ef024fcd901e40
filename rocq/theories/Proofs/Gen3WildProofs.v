(** One encounter of the generation 3 wild generator. *)
From Coq Require Import NArith ZArith List Bool Lia.
From Verif Require Import Base.Word Base.WordLemmas Model.Lcrng32 Model.LcrngClasses
  Model.Gen3State Model.Gen3Area Model.Gen3Wild Spec.LcrngSpec Spec.Gen3Spec Spec.Gen3WildSpec
  Proofs.Gen3StateProofs Proofs.Gen3StateInit Proofs.Gen3AreaProofs Proofs.Gen3Draws
  Proofs.Gen3Pid.
Import ListNotations.
Ltac Zify.zify_post_hook ::= idtac.
Open Scope N_scope.

Lemma steps_0 s : steps 0 s = s.
Proof. reflexivity. Qed.

Lemma land_ones_mod x k : N.land x (N.ones k) = x mod 2 ^ k.
Proof. apply N.land_ones. Qed.

Lemma rse_eq game :
  negb (N.land game (N.lor (N.lor Game_RUBY Game_SAPPHIRE) Game_EMERALD) =? 0) = is_rse game.
Proof.
  change (N.lor (N.lor Game_RUBY Game_SAPPHIRE) Game_EMERALD) with (N.ones 3).
  rewrite N.land_ones. change (2^3) with 8. unfold is_rse.
  assert (E : forall i, i < 3 -> N.testbit game i = N.testbit (game mod 8) i).
  { intros i Hi. change 8 with (2^3). now rewrite N.mod_pow2_bits_low. }
  rewrite (E 0), (E 1), (E 2) by lia.
  assert (L : game mod 8 < 8) by (apply N.mod_lt; discriminate).
  set (y := game mod 8) in *. clearbody y. clear E.
  assert (K : y = 0 \/ y = 1 \/ y = 2 \/ y = 3 \/ y = 4 \/ y = 5 \/ y = 6 \/ y = 7) by lia.
  destruct K as [->|[->|[->|[->|[->|[->|[->| ->]]]]]]]; reflexivity.
Qed.

Lemma species_land sl : N.land (s_species sl) 0x7FF = species_of sl.
Proof. change 0x7FF with (N.ones 11). rewrite N.land_ones. reflexivity. Qed.
Lemma form_shift sl : N.shiftr (s_species sl) 11 = form_of sl.
Proof. rewrite N.shiftr_div_pow2. reflexivity. Qed.
Lemma form_lt sl : slot_ok sl -> form_of sl < 32.
Proof. intros (_ & _ & H). unfold form_of. apply N.div_lt_upper_bound; [discriminate|]. lia. Qed.

Lemma ivs_eq a b : ivs_of a b = ivs_from a b.
Proof.
  unfold ivs_of, ivs_from. change 0x1F with (N.ones 5). rewrite !N.land_ones.
  rewrite !N.shiftr_div_pow2. reflexivity.
Qed.
Lemma ivs_small a b i : aget (ivs_from a b) i < 256.
Proof.
  unfold ivs_from, aget.
  assert (H : forall y, y mod 32 < 256) by (intros y; pose proof (N.mod_lt y 32); lia).
  do 6 (destruct i as [|i]; [apply H|]). cbn. destruct i; lia.
Qed.

Section Step.
Variables (fuel : nat) (junk : list N) (g : wildgen) (area : area3) (mods : list slot3).
Variables (safari : bool) (s advance : N).
Hypothesis Hs : s < 2^32.
Hypothesis Hadv : advance < 2^32.
Hypothesis Hjunk : length junk = 6%nat.
Hypothesis Harea : area_ok area.
Hypothesis Hmods : Forall slot_ok mods.
Hypothesis Hmlen : N.of_nat (length mods) < 65536.
Hypothesis Htab : Forall info_ok (w_table g).
Hypothesis Hcover : forall sl, In sl (slots_of area (w_encounter g)) \/ In sl mods ->
  species_of sl < N.of_nat (length (w_table g)).

Notation x := (rand_at s).

Lemma slot_choice_in p : exists sl p', slot_choice x g area mods p = (Some sl, p') /\
  (In sl (slots_of area (w_encounter g)) \/ In sl mods).
Proof.
  destruct Harea as [Hshape _].
  assert (O : forall r, exists sl, nth_error (slots_of area (w_encounter g))
      (N.to_nat (slot_one_early (cumulative_of (w_encounter g)) (Z.of_N (r mod 100)))) = Some sl
      /\ In sl (slots_of area (w_encounter g))).
  { intros r. apply (ordinary_some area (w_encounter g) r Hshape). }
  unfold slot_choice. cbv zeta.
  destruct ((w_lead g =? Lead_MAGNET_PULL) || (w_lead g =? Lead_STATIC)).
  - destruct ((x (p + 1) mod 2 =? 0) && negb (length mods =? 0)%nat) eqn:E.
    + apply andb_prop in E. destruct E as [_ E]. apply negb_true_iff, Nat.eqb_neq in E.
      destruct (nth_error mods (N.to_nat (x (p + 2) mod N.of_nat (length mods)))) as [sl|] eqn:En.
      * exists sl, (p + 2). split; [reflexivity|]. right. eapply nth_error_In. exact En.
      * apply nth_error_None in En.
        pose proof (N.mod_lt (x (p + 2)) (N.of_nat (length mods))). lia.
    + destruct (O (x (p + 1 + 1))) as (sl & E1 & E2). rewrite E1. eauto.
  - destruct (O (x (p + 1))) as (sl & E1 & E2). rewrite E1. eauto.
Qed.

Lemma slot_in_ok sl : In sl (slots_of area (w_encounter g)) \/ In sl mods -> slot_ok sl.
Proof.
  destruct Harea as [_ H]. specialize (H (w_encounter g)).
  rewrite Forall_forall in H. rewrite Forall_forall in Hmods. intros [K|K]; auto.
Qed.

Lemma charm_steps info charm0 p :
  (is_cute_charm g = false -> charm0 = false) ->
  roll_cute_charm g info charm0 (steps p s) =
    let '(c, p') := charm_choice x g (pi_gender_ratio info) p in (steps p' s, Ok c).
Proof.
  intros Hc. unfold roll_cute_charm, charm_choice. fold (is_cute_charm g).
  destruct (is_cute_charm g).
  - destruct ((0 <? pi_gender_ratio info) && (pi_gender_ratio info <? 254)); [reflexivity|].
    unfold rand_3. rewrite const_rand_steps by (try assumption; lia). reflexivity.
  - now rewrite Hc.
Qed.
Lemma charm_false p ratio : is_cute_charm g = false -> fst (charm_choice x g ratio p) = false.
Proof. unfold charm_choice. now intros ->. Qed.
Lemma charm_ratio p ratio : ratio < 256 -> fst (charm_choice x g ratio p) = true ->
  ratio = 0 \/ ratio = 254 \/ ratio = 255.
Proof.
  unfold charm_choice. destruct (is_cute_charm g); [|discriminate].
  destruct (N.ltb_spec 0 ratio), (N.ltb_spec ratio 254); cbn [andb fst]; try discriminate; intros; lia.
Qed.

Lemma nature_steps p :
  roll_nature g (steps p s) = let '(n, p') := nature_choice x g p in (steps p' s, Ok n).
Proof.
  unfold roll_nature, nature_choice. destruct (w_lead g <=? Lead_SYNCHRONIZE_QUIRKY).
  - unfold rand_2. rewrite const_rand_steps by (try assumption; lia). cbn [sbind].
    destruct (x (p + 1) mod 2 =? 0); [reflexivity|].
    unfold rand_25. rewrite const_rand_steps by (try assumption; lia).
    replace (p + 1 + 1) with (p + 2) by lia. reflexivity.
  - unfold rand_25. rewrite const_rand_steps by (try assumption; lia). reflexivity.
Qed.
Lemma nature_lt p : fst (nature_choice x g p) < 25.
Proof.
  unfold nature_choice. destruct (N.leb_spec (w_lead g) Lead_SYNCHRONIZE_QUIRKY) as [L|L].
  - destruct (x (p + 1) mod 2 =? 0); cbn [fst].
    + unfold Lead_SYNCHRONIZE_QUIRKY in L. lia.
    + apply N.mod_lt. discriminate.
  - apply N.mod_lt. discriminate.
Qed.

(** The state that belongs to an accepted PID. *)
Lemma finish_ok info sl level p pid :
  info_ok info -> slot_ok sl -> level < 256 -> pid < 2^32 ->
  exists st, finish_state g junk info advance (species_of sl) (form_of sl) level (steps p s) pid = Ok st /\
    g_advance st = advance /\ g_pid st = pid /\
    g_species st = species_of sl /\ g_form st = form_of sl /\ g_level st = level /\
    g_ivs st = ivs_from (x (iv1_pos g p)) (x (iv2_pos g p)) /\
    g_nature st = pid mod 25 /\ g_ability st = pid mod 2 /\
    g_ability_index st = (if pid mod 2 =? 0 then pi_ability_1 info else pi_ability_2 info) /\
    g_gender st = gender_code (gender_of pid (pi_gender_ratio info)) /\
    g_shiny st = shiny_code (shiny_of pid (w_tsv g)) /\
    characteristic_is pid (g_ivs st) (g_characteristic st) /\
    g_hidden_power st = hidden_power_type (g_ivs st) /\
    g_hidden_power_strength st = AInt (hidden_power_power (g_ivs st)) /\
    g_stats st = map (stored_stat (pid mod 25) level
                        [pi_hp info; pi_attack info; pi_defense info; pi_special_attack info;
                         pi_special_defense info; pi_speed info] (g_ivs st)) (seq 0 6).
Proof.
  intros (I1 & I2 & I3 & I4 & I5 & I6 & _) Hsl Hl Hp.
  unfold finish_state. cbv zeta.
  set (q1 := if w_method g =? Method_METHOD_2 then p + 1 else p).
  replace (if w_method g =? Method_METHOD_2 then poke_next (steps p s) else steps p s) with (steps q1 s)
    by (unfold q1; destruct (w_method g =? Method_METHOD_2); [now rewrite poke_next_steps|reflexivity]).
  rewrite poke_u16_steps by exact Hs.
  set (q2 := if w_method g =? Method_METHOD_4 then q1 + 1 + 1 else q1 + 1).
  replace (if w_method g =? Method_METHOD_4 then poke_next (steps (q1 + 1) s) else steps (q1 + 1) s) with (steps q2 s)
    by (unfold q2; destruct (w_method g =? Method_METHOD_4); [now rewrite poke_next_steps|reflexivity]).
  rewrite poke_u16_steps by exact Hs.
  replace (q1 + 1) with (iv1_pos g p)
    by (unfold q1, iv1_pos; destruct (w_method g =? Method_METHOD_2); lia).
  replace (q2 + 1) with (iv2_pos g p)
    by (unfold q2, q1, iv2_pos, iv1_pos; destruct (w_method g =? Method_METHOD_2), (w_method g =? Method_METHOD_4); lia).
  rewrite ivs_eq.
  assert (Eab : N.land pid 1 = pid mod 2) by (change 1 with (N.ones 1); now rewrite N.land_ones).
  rewrite Eab. rewrite (w32_small pid) by exact Hp.
  set (ivs := ivs_from (x (iv1_pos g p)) (x (iv2_pos g p))).
  destruct (gstate_new_ok Numba junk advance pid (species_of sl) (form_of sl) ivs (pid mod 2) level
              (get_shiny pid (w_tsv g)) info Hjunk Hp Hl (ivs_small _ _) I1 I2 I3 I5 I6 I4)
    as (st & E & F1 & F2 & F3 & F4 & F5 & F6 & F7 & F8 & F9 & F10 & F11 & F12 & F13 & F14 & F15).
  exists st. split; [exact E|].
  change (2^32) with 4294967296 in Hadv.
  pose proof (form_lt sl Hsl) as Hfl.
  assert (Hsp : species_of sl < 2048) by (apply N.mod_lt; discriminate).
  assert (Hm2 : pid mod 2 < 2) by (apply N.mod_lt; discriminate).
  rewrite F5.
  split; [rewrite F1; now apply w32_small|]. split; [exact F2|].
  split; [rewrite F3; apply w16_small; lia|]. split; [rewrite F4; apply w8_small; lia|].
  split; [exact F12|]. split; [reflexivity|]. split; [exact F13|].
  split; [rewrite F6; apply w8_small; lia|]. split; [exact F7|]. split; [exact F9|].
  split.
  { rewrite F14, c42_shiny. destruct (shiny_of pid (w_tsv g)); reflexivity. }
  split; [exact F8|]. split; [exact F10|]. split; [|exact F15].
  rewrite F11. exact (proj1 (strength_ok (iv_bits ivs 1) (iv_bits_lt ivs 1))).
Qed.

Definition rate16 : N := get_encounter_rate area (w_encounter g) * 16.

(** Everything up to the PID search. *)
Lemma step_to_search charm0 :
  (is_cute_charm g = false -> charm0 = false) ->
  (check_fails x g area = true /\
   wild_step fuel junk g area mods rate16 safari (is_rse (w_game g)) charm0 s advance = Ok (charm0, None)) \/
  (check_fails x g area = false /\
   exists sl p1 level p2 info charm p3 nature p5,
    slot_choice x g area mods (after_check g) = (Some sl, p1) /\ slot_ok sl /\
    (In sl (slots_of area (w_encounter g)) \/ In sl mods) /\
    level_choice x g sl p1 = (level, p2) /\ level < 256 /\
    nth_error (w_table g) (N.to_nat (species_of sl)) = Some info /\ info_ok info /\
    charm_choice x g (pi_gender_ratio info) p2 = (charm, p3) /\
    (is_cute_charm g = false -> charm = false) /\
    (charm = true -> pi_gender_ratio info = 0 \/ pi_gender_ratio info = 254 \/ pi_gender_ratio info = 255) /\
    nature_choice x g (p3 + if safari then 1 else 0) = (nature, p5) /\ nature < 25 /\
    wild_step fuel junk g area mods rate16 safari (is_rse (w_game g)) charm0 s advance =
      match pid_search fuel g info nature (species_of sl) (form_of sl) charm (steps p5 s) with
      | Raise e => Raise e
      | Ok (go, pid) =>
          rmap (fun st => (charm, Some st))
            (finish_state g junk info advance (species_of sl) (form_of sl) level go pid)
      end).
Proof.
  intros Hc0. unfold wild_step. cbv zeta.
  assert (E0 : lcrng32_re_init 0 s = steps 0 s).
  { unfold lcrng32_re_init. rewrite steps_0. apply w32_small. exact Hs. }
  rewrite E0. fold (needs_check g).
  set (C := if needs_check g then _ else _).
  assert (EC : C = (steps (after_check g) s, Ok (check_fails x g area))).
  { unfold C, after_check, check_fails. destruct (needs_check g) eqn:En; [|reflexivity].
    unfold rand_2880. rewrite const_rand_steps by (try assumption; lia). cbn [sbind andb].
    rewrite N.add_0_l. f_equal. f_equal. f_equal.
    unfold needs_check in En. apply andb_prop in En. destruct En as [_ En]. apply N.eqb_eq in En.
    unfold rate16. rewrite En. unfold get_encounter_rate. cbn. apply N.mul_comm. }
  rewrite EC. clear EC C. cbn [sbind].
  destruct (check_fails x g area) eqn:Ef.
  { left. split; reflexivity. }
  right. split; [reflexivity|].
  destruct (slot_choice_in (after_check g)) as (sl & p1 & Esl & Hin).
  rewrite hslot_lead_steps by assumption. rewrite Esl. cbn [opt_res sbind].
  pose proof (slot_in_ok sl Hin) as Hslok.
  rewrite (level_steps g sl p1 s Hs Hslok).
  pose proof (level_choice_range x g sl p1 Hslok) as Hlv.
  destruct (level_choice x g sl p1) as [level p2] eqn:El. cbn [fst] in Hlv. cbn [sbind].
  rewrite species_land, form_shift.
  destruct (nth_error (w_table g) (N.to_nat (species_of sl))) as [info|] eqn:Ei.
  2:{ apply nth_error_None in Ei. specialize (Hcover sl Hin). lia. }
  assert (Hinfo : info_ok info).
  { rewrite Forall_forall in Htab. apply Htab. eapply nth_error_In. exact Ei. }
  rewrite (charm_steps info charm0 p2 Hc0).
  pose proof (charm_false p2 (pi_gender_ratio info)) as Hcf.
  pose proof (charm_ratio p2 (pi_gender_ratio info)) as Hcr.
  destruct (charm_choice x g (pi_gender_ratio info) p2) as [charm p3] eqn:Ec. cbn [fst] in Hcf, Hcr. cbn [sbind].
  replace (if safari then poke_next (steps p3 s) else steps p3 s)
    with (steps (p3 + if safari then 1 else 0) s)
    by (destruct safari; [now rewrite poke_next_steps|now rewrite N.add_0_r]).
  rewrite nature_steps.
  pose proof (nature_lt (p3 + if safari then 1 else 0)) as Hnt.
  destruct (nature_choice x g (p3 + if safari then 1 else 0)) as [nature p5] eqn:En.
  cbn [fst] in Hnt. cbn [sbind].
  exists sl, p1, level, p2, info, charm, p3, nature, p5.
  split; [reflexivity|]. split; [exact Hslok|]. split; [exact Hin|]. split; [exact El|].
  split; [destruct Hslok as (_ & K & _); lia|]. split; [exact Ei|]. split; [exact Hinfo|].
  split; [exact Ec|]. split; [exact Hcf|].
  split. { intros Ht. apply Hcr; [|exact Ht]. apply Hinfo. }
  split; [exact En|]. split; [exact Hnt|].
  destruct (pid_search fuel g info nature (species_of sl) (form_of sl) charm (steps p5 s)) as [[go pid]|e];
    reflexivity.
Qed.

(** The description of a state: draws and stats. *)
Definition described (st : gstate) : Prop :=
  exists d, drawn x g area mods safari d /\ state_of g advance d st /\
    (In (d_slot d) (slots_of area (w_encounter g)) \/ In (d_slot d) mods) /\
    g_stats st = map (stored_stat (d_nature d) (d_level d)
                        (let info := d_info d in
                         [pi_hp info; pi_attack info; pi_defense info; pi_special_attack info;
                          pi_special_defense info; pi_speed info]) (d_ivs d)) (seq 0 6).

Lemma describe_state sl p1 level p2 info charm p3 nature p5 n :
  check_fails x g area = false ->
  slot_choice x g area mods (after_check g) = (Some sl, p1) -> slot_ok sl ->
  (In sl (slots_of area (w_encounter g)) \/ In sl mods) ->
  level_choice x g sl p1 = (level, p2) -> level < 256 ->
  nth_error (w_table g) (N.to_nat (species_of sl)) = Some info -> info_ok info ->
  charm_choice x g (pi_gender_ratio info) p2 = (charm, p3) ->
  nature_choice x g (p3 + if safari then 1 else 0) = (nature, p5) ->
  accepts g (pi_gender_ratio info) nature (species_of sl) (form_of sl) charm (pid_at x (p5 + 2 * n)) ->
  (forall j, j < n -> ~ accepts g (pi_gender_ratio info) nature (species_of sl) (form_of sl) charm
                         (pid_at x (p5 + 2 * j))) ->
  exists st, finish_state g junk info advance (species_of sl) (form_of sl) level
               (steps (p5 + 2 * n + 2) s) (pid_at x (p5 + 2 * n)) = Ok st /\ described st.
Proof.
  intros Ef Esl Hslok Hin El Hlv Ei Hinfo Ec En Hacc Hmin.
  destruct (finish_ok info sl level (p5 + 2 * n + 2) (pid_at x (p5 + 2 * n)) Hinfo Hslok Hlv
              (pid_at_lt s _ Hs))
    as (st & E & F1 & F2 & F3 & F4 & F5 & F6 & F7 & F8 & F9 & F10 & F11 & F12 & F13 & F14 & F15).
  exists st. split; [exact E|].
  set (p := p5 + 2 * n + 2) in *.
  exists {| d_slot := sl; d_level := level; d_info := info; d_charm := charm; d_nature := nature;
            d_first := p5; d_tries := n; d_pid := pid_at x (p5 + 2 * n);
            d_ivs := ivs_from (x (iv1_pos g p)) (x (iv2_pos g p)) |}.
  assert (Hnat : pid_at x (p5 + 2 * n) mod 25 = nature) by apply Hacc.
  split; [|split; [|split]].
  - unfold drawn. cbn [d_slot d_level d_info d_charm d_nature d_first d_tries d_pid d_ivs].
    split; [exact Ef|]. exists p1, p2, p3, (p3 + if safari then 1 else 0).
    cbv zeta. repeat split; try assumption; apply Hacc.
  - unfold state_of. cbn [d_slot d_level d_info d_charm d_nature d_first d_tries d_pid d_ivs].
    rewrite F6 in F12, F13, F14.
    repeat split; try assumption. now rewrite F7.
  - exact Hin.
  - cbn [d_slot d_level d_info d_charm d_nature d_first d_tries d_pid d_ivs].
    rewrite F15, F6, Hnat. reflexivity.
Qed.

(** What a step returns is described by the specification. *)
Lemma step_sound charm0 charm' r :
  (is_cute_charm g = false -> charm0 = false) ->
  wild_step fuel junk g area mods rate16 safari (is_rse (w_game g)) charm0 s advance = Ok (charm', r) ->
  (is_cute_charm g = false -> charm' = false) /\
  match r with
  | None => check_fails x g area = true
  | Some st => check_fails x g area = false /\ described st
  end.
Proof.
  intros Hc0 H. destruct (step_to_search charm0 Hc0) as [[Ef E]|[Ef (sl & p1 & level & p2 & info & charm & p3 & nature & p5 & E1 & E2 & E3 & E4 & E5 & E6 & E7 & E8 & E9 & E10 & E11 & E12 & E)]].
  - rewrite E in H. injection H as <- <-. auto.
  - rewrite E in H.
    destruct (pid_search fuel g info nature (species_of sl) (form_of sl) charm (steps p5 s)) as [[go pid]|e] eqn:Ep; [|discriminate].
    apply (search_sound g info nature (species_of sl) (form_of sl) charm E12 (form_lt sl E2) E10) in Ep; [|exact Hs].
    destruct Ep as (n & Er & Hacc & Hmin). apply pair_equal_spec in Er. destruct Er as [-> ->].
    destruct (describe_state sl p1 level p2 info charm p3 nature p5 n Ef E1 E2 E3 E4 E5 E6 E7 E8 E11 Hacc Hmin)
      as (st & Est & Hd).
    rewrite Est in H. cbn [rmap] in H. injection H as <- <-. auto.
Qed.

(** A step ends, unless the drawn encounter admits no PID. *)
Lemma step_total charm0 : 2^31 <= N.of_nat fuel ->
  (is_cute_charm g = false -> charm0 = false) ->
  (forall sl info charm,
     (In sl (slots_of area (w_encounter g)) \/ In sl mods) ->
     nth_error (w_table g) (N.to_nat (species_of sl)) = Some info ->
     (is_cute_charm g = false -> charm = false) ->
     satisfiable (w_lead g) (pi_gender_ratio info) (species_of sl) (form_of sl) charm) ->
  exists charm' r,
    wild_step fuel junk g area mods rate16 safari (is_rse (w_game g)) charm0 s advance = Ok (charm', r).
Proof.
  intros Hfuel Hc0 Hsat. destruct (step_to_search charm0 Hc0) as [[Ef E]|[Ef (sl & p1 & level & p2 & info & charm & p3 & nature & p5 & E1 & E2 & E3 & E4 & E5 & E6 & E7 & E8 & E9 & E10 & E11 & E12 & E)]].
  - rewrite E. eauto.
  - rewrite E.
    destruct (search_ends g info nature (species_of sl) (form_of sl) charm E12 (form_lt sl E2) E10 fuel p5 s Hs Hfuel
                (Hsat sl info charm E3 E6 E9)) as (n & _ & Ep & Hacc & Hmin).
    rewrite Ep.
    destruct (describe_state sl p1 level p2 info charm p3 nature p5 n Ef E1 E2 E3 E4 E5 E6 E7 E8 E11 Hacc Hmin)
      as (st & Est & Hd).
    rewrite Est. cbn [rmap]. eauto.
Qed.
End Step.
