(** Settings of the wild generator that leave parts of the states alone. *)
From Coq Require Import NArith ZArith Arith List Bool Lia.
From Verif Require Import Base.Word Base.WordLemmas Model.Lcrng32 Model.LcrngClasses Model.Gen3State Model.Gen3Area Model.Gen3Wild
  Spec.Gen3WildSpec Spec.SettingsSpec Proofs.Gen3Generate Proofs.Gen3Final.
Import ListNotations.
Ltac Zify.zify_post_hook ::= idtac.
Open Scope N_scope.

Lemma rmap_rmap {A B C} (f : A -> B) (h : B -> C) (r : res A) : rmap h (rmap f r) = rmap (fun x => h (f x)) r.
Proof. now destruct r. Qed.

(** ** Two generators in step *)
Section Pair.
Context {X : Type} (p p' : gstate -> X) (g g' : wildgen) (fuel : nat) (junk : list N).
Hypothesis He : w_encounter g = w_encounter g'.
Hypothesis Hnature : forall go, roll_nature g go = roll_nature g' go.
Hypothesis Hcharm : forall info c go, roll_cute_charm g info c go = roll_cute_charm g' info c go.
Hypothesis Hfemale : (w_lead g =? Lead_CUTE_CHARM_F) = (w_lead g' =? Lead_CUTE_CHARM_F).
Hypothesis Hpressure : (w_lead g =? Lead_PRESSURE) = (w_lead g' =? Lead_PRESSURE).
Hypothesis Ht : w_table g = w_table g'.
Hypothesis Hf : forall info advance species form level go pid,
  rmap p (finish_state g junk info advance species form level go pid) =
  rmap p' (finish_state g' junk info advance species form level go pid).

Definition seen (q : gstate -> X) (r : bool * option gstate) : bool * option X := (fst r, option_map q (snd r)).
Lemma search_pair info n species form c go : pid_search fuel g info n species form c go = pid_search fuel g' info n species form c go.
Proof. unfold pid_search, pid_rejected, cute_charm_check. now rewrite Hfemale. Qed.
Variables (area : area3) (mods mods' : list slot3).
Hypothesis Hslot : forall go,
  calculate_hslot_lead area go (w_encounter g') (w_lead g) mods = calculate_hslot_lead area go (w_encounter g') (w_lead g') mods'.
Lemma step_pair rate safari rse c s a :
  rmap (seen p) (wild_step fuel junk g area mods rate safari rse c s a) =
  rmap (seen p') (wild_step fuel junk g' area mods' rate safari rse c s a).
Proof.
  unfold wild_step. cbv zeta. rewrite He, Hpressure, Ht. rewrite !snd_sbind.
  match goal with |- rmap _ (match ?x with _ => _ end) = _ => destruct x as [go [skip|e]]; [|reflexivity] end.
  destruct skip; [reflexivity|]. rewrite !snd_sbind.
  rewrite Hslot. destruct (calculate_hslot_lead _ _ _ _ _) as [go1 [sl|e]]; [|reflexivity]. rewrite !snd_sbind.
  destruct (calculate_level _ _ _) as [go2 [lv|e]]; [|reflexivity].
  destruct (nth_error _ _) as [info|]; [|reflexivity]. rewrite !snd_sbind.
  rewrite Hcharm. destruct (roll_cute_charm _ _ _ _) as [go3 [c'|e]]; [|reflexivity]. rewrite !snd_sbind.
  rewrite Hnature. destruct (roll_nature _ _) as [go4 [n|e]]; [|reflexivity].
  rewrite search_pair. destruct (pid_search _ _ _ _ _ _ _ _) as [[go5 pid]|e]; [|reflexivity].
  cbn [snd]. rewrite !rmap_rmap.
  pose proof (Hf info a (N.land (s_species sl) 2047) (N.shiftr (s_species sl) 11) lv go5 pid) as F.
  destruct (finish_state g _ _ _ _ _ _ _ _) as [st|e]; destruct (finish_state g' _ _ _ _ _ _ _ _) as [st'|e'];
    cbn [rmap] in F; try discriminate F; injection F as F; unfold seen; cbn [rmap fst snd option_map]; now rewrite F.
Qed.
Lemma loop_pair rate safari rse n : forall a s c,
  rmap (map p) (wild_loop fuel junk g area mods rate safari rse n a s c) =
  rmap (map p') (wild_loop fuel junk g' area mods' rate safari rse n a s c).
Proof.
  induction n as [|n IH]; intros a s c; [reflexivity|]. cbn [wild_loop].
  pose proof (step_pair rate safari rse c s a) as E.
  destruct (wild_step fuel junk g area mods rate safari rse c s a) as [[c1 [st|]]|e];
  destruct (wild_step fuel junk g' area mods' rate safari rse c s a) as [[c2 [st'|]]|e'];
    unfold seen in E; cbn [rmap fst snd option_map] in E; try discriminate E; cbn [rbind].
  - injection E as <- E. specialize (IH (a + 1) (poke_next s) c1). rewrite !rmap_rmap. cbn [map].
    destruct (wild_loop fuel junk g area mods rate safari rse n (a + 1) (poke_next s) c1) as [l|e];
    destruct (wild_loop fuel junk g' area mods' rate safari rse n (a + 1) (poke_next s) c1) as [l'|e'];
      cbn [rmap] in IH |- *; try discriminate IH; injection IH as IH; now rewrite IH, ?E.
  - injection E as <-. apply IH.
  - now injection E as <-.
Qed.
Lemma generate_pair seed delay initial max :
  get_modified_slots area (w_encounter g) (w_lead g) (w_game g) (w_table g) = Ok mods ->
  get_modified_slots area (w_encounter g') (w_lead g') (w_game g') (w_table g') = Ok mods' ->
  is_rse_safari_zone area (w_game g) = is_rse_safari_zone area (w_game g') ->
  negb (N.land (w_game g) (N.lor (N.lor Game_RUBY Game_SAPPHIRE) Game_EMERALD) =? 0) =
  negb (N.land (w_game g') (N.lor (N.lor Game_RUBY Game_SAPPHIRE) Game_EMERALD) =? 0) ->
  rmap (map p) (wild_generate fuel junk g seed delay initial max area) =
  rmap (map p') (wild_generate fuel junk g' seed delay initial max area).
Proof.
  intros H1 H1' H2 H3. unfold wild_generate. cbv zeta. rewrite H1, H1', H2, H3, He. cbn [rbind].
  destruct (poke_jump _ _) as [rng [x|e]]; [|reflexivity]. apply loop_pair.
Qed.
End Pair.

(** The same lead. *)
Lemma generate_same {X} (p p' : gstate -> X) g g' fuel junk seed delay initial max area :
  w_encounter g = w_encounter g' -> w_lead g = w_lead g' -> w_table g = w_table g' ->
  (forall info advance species form level go pid,
     rmap p (finish_state g junk info advance species form level go pid) =
     rmap p' (finish_state g' junk info advance species form level go pid)) ->
  get_modified_slots area (w_encounter g) (w_lead g) (w_game g) (w_table g) =
  get_modified_slots area (w_encounter g') (w_lead g') (w_game g') (w_table g') ->
  is_rse_safari_zone area (w_game g) = is_rse_safari_zone area (w_game g') ->
  negb (N.land (w_game g) (N.lor (N.lor Game_RUBY Game_SAPPHIRE) Game_EMERALD) =? 0) =
  negb (N.land (w_game g') (N.lor (N.lor Game_RUBY Game_SAPPHIRE) Game_EMERALD) =? 0) ->
  rmap (map p) (wild_generate fuel junk g seed delay initial max area) =
  rmap (map p') (wild_generate fuel junk g' seed delay initial max area).
Proof.
  intros He Hl Ht Hf H1 H2 H3.
  destruct (get_modified_slots area (w_encounter g) (w_lead g) (w_game g) (w_table g)) as [mods|e] eqn:E.
  - apply (generate_pair p p' g g' fuel junk He) with (mods := mods) (mods' := mods);
      try exact Ht; try exact Hf; try exact H2; try exact H3; try exact E; try (symmetry; exact H1);
      intros; unfold roll_nature, roll_cute_charm; rewrite Hl; reflexivity.
  - unfold wild_generate. now rewrite E, <- H1.
Qed.

(** ** The trainer's ids *)
Lemma new_shiny m junk a pid species form ivs ability level shiny shiny' info :
  rmap without_shiny (gstate_new m junk a pid species form ivs ability level shiny info) =
  rmap without_shiny (gstate_new m junk a pid species form ivs ability level shiny' info).
Proof.
  unfold gstate_new. cbv zeta. destruct (for_range_r 6 0 _ _) as [u|e]; reflexivity.
Qed.
Lemma trainer_only_shiny fuel junk t method encounter lead game tid sid tid' sid' seed delay initial max area :
  rmap (map without_shiny) (wild_generate fuel junk (wild_new t method encounter lead game tid sid) seed delay initial max area) =
  rmap (map without_shiny) (wild_generate fuel junk (wild_new t method encounter lead game tid' sid') seed delay initial max area).
Proof.
  apply generate_same; try reflexivity. intros info a species form level go pid.
  unfold finish_state. cbv zeta. cbn [w_method wild_new].
  destruct (poke_next_u16 _) as [go1 iv1]. destruct (poke_next_u16 _) as [go2 iv2]. apply new_shiny.
Qed.

(** ** The method *)
Lemma stat_total stat nature index : nature < 25 -> index < 6 -> exists v, compute_stat stat nature index = Ok v.
Proof.
  intros Hn Hi. unfold compute_stat.
  destruct (nth_error NATURE_MODIFIERS (N.to_nat nature)) as [row|] eqn:E.
  - assert (R : length row = 5%nat).
    { unfold NATURE_MODIFIERS in E. apply nth_error_In in E. apply in_map_iff in E. destruct E as (k & <- & _).
      unfold nature_row, row_add, row_sub. rewrite !aset_length. now rewrite repeat_length. }
    destruct (nth_error row _) as [f|] eqn:F; [eexists; exact eq_refl|]. apply nth_error_None in F.
    rewrite R in F. destruct (N.eqb_spec index 0); lia.
  - apply nth_error_None in E. unfold NATURE_MODIFIERS in E. rewrite map_length, seq_length in E. lia.
Qed.
Lemma body_total ivs base level nature ec i u : nature < 25 -> (i < 6)%nat -> length (u_stats u) = 6%nat ->
  exists u', update_body ivs base level nature ec i u = Ok u' /\ length (u_stats u') = 6%nat.
Proof.
  intros Hn Hi Hu. unfold update_body. cbv zeta.
  assert (S : exists stats, match i with
    | O => asetr (u_stats u) i (w16 (w16 ((2 * aget base i + aget ivs i) * level / 100) + level + 10))
    | _ => rbind (compute_stat (w16 (w16 ((2 * aget base i + aget ivs i) * level / 100) + 5)) nature (N.of_nat i))
                  (fun s => asetr (u_stats u) i s)
    end = Ok stats /\ length stats = 6%nat).
  { assert (A : forall v, exists stats, asetr (u_stats u) i v = Ok stats /\ length stats = 6%nat).
    { intros v. unfold asetr. rewrite Hu. destruct (Nat.ltb_spec i 6); [|lia].
      eexists. split; [exact eq_refl|]. now rewrite aset_length. }
    destruct i as [|i]; [apply A|].
    destruct (stat_total (w16 (w16 ((2 * aget base (S i) + aget ivs (S i)) * level / 100) + 5)) nature (N.of_nat (S i)) Hn) as (v & E);
      [lia|]. rewrite E. cbn [rbind]. apply A. }
  destruct S as (stats & E & L). rewrite E. cbn [rbind].
  match goal with |- exists u', (if ?b then _ else _) = _ /\ _ => destruct b end; eexists; (split; [exact eq_refl|exact L]).
Qed.
Lemma range_total ivs base level nature ec n : forall i u, nature < 25 -> (i + n <= 6)%nat -> length (u_stats u) = 6%nat ->
  exists u', for_range_r n i (update_body ivs base level nature ec) u = Ok u'.
Proof.
  induction n as [|n IH]; intros i u Hn Hi Hu; cbn [for_range_r]; [eexists; exact eq_refl|].
  destruct (body_total ivs base level nature ec i u Hn) as (u' & E & L); [lia|exact Hu|].
  rewrite E. cbn [rbind]. apply IH; [exact Hn|lia|exact L].
Qed.
(** All that [gstate_new] does with the IVs besides the four fields is store them. *)
Lemma new_ivs {X} (p p' : gstate -> X) m junk a pid species form ivs ivs' ability level shiny info :
  length junk = 6%nat ->
  (forall st st', without_ivs st = without_ivs st' -> g_ivs st = ivs -> g_ivs st' = ivs' -> p st = p' st') ->
  rmap p (gstate_new m junk a pid species form ivs ability level shiny info) =
  rmap p' (gstate_new m junk a pid species form ivs' ability level shiny info).
Proof.
  intros Hj Hp. unfold gstate_new. cbv zeta.
  assert (Hn : w32 pid mod 25 < 25) by (apply N.mod_lt; discriminate).
  match goal with |- rmap p (rbind (for_range_r 6 0 (update_body ivs ?b ?l ?n ?e) ?u) _) = _ =>
    destruct (range_total ivs b l n e 6 0%nat u Hn (le_n 6) Hj) as (u1 & E1);
    destruct (range_total ivs' b l n e 6 0%nat u Hn (le_n 6) Hj) as (u2 & E2) end.
  rewrite E1, E2. cbn [rbind rmap]. f_equal. now apply Hp.
Qed.
Lemma method_only_ivs {X} (p p' : gstate -> X) fuel junk t method method' encounter lead game tid sid seed delay initial max area :
  length junk = 6%nat ->
  (forall r1 r2 r3 st st', without_ivs st = without_ivs st' ->
     g_ivs st = ivs_of (if w8 method =? Method_METHOD_2 then r2 else r1)
       (if w8 method =? Method_METHOD_2 then (if w8 method =? Method_METHOD_4 then r2 else r3) else
        if w8 method =? Method_METHOD_4 then r3 else r2) ->
     g_ivs st' = ivs_of (if w8 method' =? Method_METHOD_2 then r2 else r1)
       (if w8 method' =? Method_METHOD_2 then (if w8 method' =? Method_METHOD_4 then r2 else r3) else
        if w8 method' =? Method_METHOD_4 then r3 else r2) -> p st = p' st') ->
  rmap (map p) (wild_generate fuel junk (wild_new t method encounter lead game tid sid) seed delay initial max area) =
  rmap (map p') (wild_generate fuel junk (wild_new t method' encounter lead game tid sid) seed delay initial max area).
Proof.
  intros Hj Hp. apply generate_same; try reflexivity. intros info a species form level go pid.
  unfold finish_state. cbv zeta. cbn [w_method w_tsv wild_new].
  pose proof (Hp (snd (poke_next_u16 go)) (snd (poke_next_u16 (poke_next go))) (snd (poke_next_u16 (poke_next (poke_next go))))) as H.
  destruct (N.eqb_spec (w8 method) Method_METHOD_2) as [E1|E1]; [rewrite E1 in H |- *; change (Method_METHOD_2 =? Method_METHOD_4) with false in H |- *|];
  [|destruct (N.eqb_spec (w8 method) Method_METHOD_4) as [E2|E2]];
  (destruct (N.eqb_spec (w8 method') Method_METHOD_2) as [E3|E3]; [rewrite E3 in H |- *; change (Method_METHOD_2 =? Method_METHOD_4) with false in H |- *|
   destruct (N.eqb_spec (w8 method') Method_METHOD_4) as [E4|E4]]);
  exact (new_ivs p p' _ _ _ _ _ _ _ _ _ _ _ _ Hj H).
Qed.

(** ** Leads *)
Lemma lead_elsewhere t method encounter lead lead' game tid sid : N.testbit game 2 = false ->
  wild_new t method encounter lead game tid sid = wild_new t method encounter lead' game tid sid.
Proof.
  intros H. unfold wild_new. cbv zeta.
  assert (E : N.land (w8 game) Game_EMERALD =? 0 = true).
  { apply N.eqb_eq. apply N.bits_inj. intros i. rewrite N.bits_0, N.land_spec.
    destruct (N.eq_dec i 2) as [->|Hi].
    - unfold w8. change 256 with (2^8). rewrite N.mod_pow2_bits_low by reflexivity. now rewrite H.
    - unfold Game_EMERALD. change 4 with (2^2). rewrite N.pow2_bits_false by (intros X; now apply Hi). apply andb_false_r. }
  now rewrite E.
Qed.
(** A lead that the generator never asks for. *)
Lemma idle_leads fuel junk g g' seed delay initial max area :
  w_method g = w_method g' -> w_encounter g = w_encounter g' -> w_game g = w_game g' -> w_tsv g = w_tsv g' ->
  w_table g = w_table g' -> setting_ok g area ->
  (forall l, l = w_lead g \/ l = w_lead g' -> 29 <= l /\ l <> 32) ->
  wild_generate fuel junk g seed delay initial max area = wild_generate fuel junk g' seed delay initial max area.
Proof.
  intros Hm He Hg Hv Ht Hs Hi.
  destruct (Hi (w_lead g) (or_introl eq_refl)) as [A1 A2]. destruct (Hi (w_lead g') (or_intror eq_refl)) as [B1 B2].
  assert (Hs' : setting_ok g' area) by (unfold setting_ok in Hs |- *; now rewrite <- Ht, <- He).
  destruct (preferred_ok g area Hs) as (M & _). destruct (preferred_ok g' area Hs') as (M' & _).
  assert (F : forall x, 29 <= x /\ x <> 32 -> (x =? Lead_MAGNET_PULL) || (x =? Lead_STATIC) = false /\
    (x =? Lead_CUTE_CHARM_M) || (x =? Lead_CUTE_CHARM_F) = false /\ (x =? Lead_CUTE_CHARM_F) = false /\
    (x =? Lead_PRESSURE) = false /\ (x <=? Lead_SYNCHRONIZE_QUIRKY) = false).
  { intros x [X1 X2]. unfold Lead_MAGNET_PULL, Lead_STATIC, Lead_CUTE_CHARM_M, Lead_CUTE_CHARM_F, Lead_PRESSURE, Lead_SYNCHRONIZE_QUIRKY.
    assert (N27 : x <> 27) by lia. assert (N28 : x <> 28) by lia. assert (N26 : x <> 26) by lia. assert (N25 : x <> 25) by lia.
    apply N.eqb_neq in N27, N28, N26, N25, X2. rewrite N27, N28, N26, N25, X2.
    repeat split. apply N.leb_gt. lia. }
  destruct (F _ (conj A1 A2)) as (a1 & a2 & a3 & a4 & a5). destruct (F _ (conj B1 B2)) as (b1 & b2 & b3 & b4 & b5).
  assert (E := generate_pair (fun st => st) (fun st => st) g g' fuel junk He).
  specialize (E ltac:(intros; unfold roll_nature; now rewrite a5, b5)
    ltac:(intros; unfold roll_cute_charm; now rewrite a2, b2) ltac:(now rewrite a3, b3) ltac:(now rewrite a4, b4) Ht).
  specialize (E ltac:(intros; unfold finish_state; now rewrite Hm, Hv) area _ _
    ltac:(intros; unfold calculate_hslot_lead; rewrite a1, b1; reflexivity) seed delay initial max M M').
  specialize (E ltac:(now rewrite Hg) ltac:(now rewrite Hg)).
  destruct (wild_generate fuel junk g seed delay initial max area) as [l|e];
  destruct (wild_generate fuel junk g' seed delay initial max area) as [l'|e'];
    cbn [rmap] in E; try discriminate E; injection E as E; rewrite ?map_id in E; now rewrite E.
Qed.

(** ** Ruby and Sapphire *)
Lemma ruby_sapphire fuel junk t method encounter lead lead' tid sid seed delay initial max area :
  wild_generate fuel junk (wild_new t method encounter lead Game_RUBY tid sid) seed delay initial max area =
  wild_generate fuel junk (wild_new t method encounter lead' Game_SAPPHIRE tid sid) seed delay initial max area.
Proof.
  assert (E := generate_same (fun st => st) (fun st => st) (wild_new t method encounter lead Game_RUBY tid sid)
    (wild_new t method encounter lead' Game_SAPPHIRE tid sid) fuel junk seed delay initial max area eq_refl eq_refl eq_refl
    ltac:(reflexivity) eq_refl eq_refl eq_refl).
  destruct (wild_generate fuel junk (wild_new t method encounter lead Game_RUBY tid sid) seed delay initial max area) as [l|e];
  destruct (wild_generate fuel junk (wild_new t method encounter lead' Game_SAPPHIRE tid sid) seed delay initial max area) as [l'|e'];
    cbn [rmap] in E; try discriminate E; injection E as E; rewrite ?map_id in E; now rewrite E.
Qed.

(** ** Other methods *)
Lemma other_methods fuel junk t method encounter lead game tid sid seed delay initial max area :
  method < 256 -> method <> 3 -> method <> 4 ->
  wild_generate fuel junk (wild_new t method encounter lead game tid sid) seed delay initial max area =
  wild_generate fuel junk (wild_new t 1 encounter lead game tid sid) seed delay initial max area.
Proof.
  intros H1 H3 H4.
  assert (E : w8 method = method) by (unfold w8; now apply N.mod_small).
  apply N.eqb_neq in H3, H4.
  assert (E' := generate_same (fun st => st) (fun st => st) (wild_new t method encounter lead game tid sid)
    (wild_new t 1 encounter lead game tid sid) fuel junk seed delay initial max area eq_refl eq_refl eq_refl).
  specialize (E' ltac:(intros; unfold finish_state; cbn [w_method w_tsv wild_new]; rewrite E;
    unfold Method_METHOD_2, Method_METHOD_4; rewrite H3, H4; reflexivity) eq_refl eq_refl eq_refl).
  destruct (wild_generate fuel junk (wild_new t method encounter lead game tid sid) seed delay initial max area) as [l|e];
  destruct (wild_generate fuel junk (wild_new t 1 encounter lead game tid sid) seed delay initial max area) as [l'|e'];
    cbn [rmap] in E'; try discriminate E'; injection E' as E'; rewrite ?map_id in E'; now rewrite E'.
Qed.
