(** Property C116: every slot can be met with every nature. *)
From Coq Require Import NArith List Bool Lia.
From Verif Require Import Base.Word Model.Gen3State Model.Gen3Area Model.Gen3Wild Model.Bundled3
  Spec.Gen3Spec Spec.Gen3WildSpec Spec.Encounter3Spec
  Proofs.Gen3Props Proofs.Gen3Generate Proofs.OneSeed Proofs.BundledProofs3 Proofs.NatureProofs Proofs.RockNature Properties.P_Gen3 Spec.WildRateSpec.
Import ListNotations.
Open Scope list_scope.
Open Scope N_scope.

(** C116. Whatever the method, the lead (but Cute Charm), the delay and the advance, for every slot of the area and every nature some
    seed gives the Pokemon of this slot, at a level of the slot, with this nature. Rock Smash in Ruby, Sapphire and Emerald must have a
    rate other than 0. *)
Theorem C116_every_slot_every_nature : forall fuel junk g area initial delay,
  length junk = 6%nat -> search_ends g area -> (needs_check g = true -> 0 < a_rock_rate area) -> 2^31 <= N.of_nat fuel -> initial + delay < 2^32 ->
  forall k slot n, nth_error (slots_of area (w_encounter g)) k = Some slot -> n < 25 ->
  exists seed st, seed < 2^32 /\ wild_generate fuel junk g seed delay initial 1 area = Ok [st] /\
    g_species st = species_of slot /\ g_form st = form_of slot /\ s_min_level slot <= g_level st <= s_max_level slot /\ g_nature st = n.
Proof.
  intros fuel junk g area initial delay J E C F D. destruct (needs_check g) eqn:H.
  - exact (rock_slot_and_nature fuel junk g area initial delay J E H (C eq_refl) F D).
  - exact (slot_and_nature fuel junk g area initial delay J E H F D).
Qed.
Print Assumptions C116_every_slot_every_nature.
(** So every seed gives it at some advance. *)
Theorem C116_from_every_seed : forall fuel junk g area seed,
  length junk = 6%nat -> search_ends g area -> (needs_check g = true -> 0 < a_rock_rate area) -> 2^31 <= N.of_nat fuel -> seed < 2^32 ->
  forall k slot n, nth_error (slots_of area (w_encounter g)) k = Some slot -> n < 25 ->
  exists i st, i < 2^32 /\ wild_generate fuel junk g seed 0 i 1 area = Ok [st] /\ g_advance st = i /\
    g_species st = species_of slot /\ g_form st = form_of slot /\ s_min_level slot <= g_level st <= s_max_level slot /\ g_nature st = n.
Proof.
  intros fuel junk g area seed J E C F H k slot n K N.
  destruct (C116_every_slot_every_nature fuel junk g area 0 0 J E C F eq_refl k slot n K N) as (s & st & Hs & G & A).
  destruct (one_seed_reaches fuel junk g seed s area H Hs) as (i & Hi & Q). rewrite G in Q. exists i, (at_advance i st).
  split; [exact Hi|]. split; [exact Q|]. split; [reflexivity|]. exact A.
Qed.
Print Assumptions C116_from_every_seed.
(** Every Pokemon of the bundled areas can be met with every nature, by Rock Smash in Ruby, Sapphire and Emerald where its rate
    is not 0. *)
Theorem C116_bundled : forall game ns areas area method encounter lead tid sid fuel junk initial delay,
  In game gen3_games -> bundled game = Ok (ns, areas) -> In area areas ->
  let g := wild_new bundled_tables method encounter lead game tid sid in
  length junk = 6%nat -> (needs_check g = true -> 0 < a_rock_rate area) -> w_lead g <> Lead_CUTE_CHARM_M -> w_lead g <> Lead_CUTE_CHARM_F ->
  2^31 <= N.of_nat fuel -> initial + delay < 2^32 ->
  forall slot n, In slot (slots_of area (w_encounter g)) -> n < 25 ->
  exists seed st, seed < 2^32 /\ wild_generate fuel junk g seed delay initial 1 area = Ok [st] /\
    g_species st = species_of slot /\ g_form st = form_of slot /\ s_min_level slot <= g_level st <= s_max_level slot /\ g_nature st = n.
Proof.
  intros game ns areas area method encounter lead tid sid fuel junk initial delay G E Ha g J C L1 L2 F D slot n S N.
  destruct (bundled_setting game ns areas area G E Ha method encounter lead tid sid) as [Se Fo].
  destruct (In_nth_error _ _ S) as [k K].
  apply (C116_every_slot_every_nature fuel junk g area initial delay J) with (k := k); try assumption.
  split; [exact Se|]. split; [exact Fo|]. split; assumption.
Qed.
Print Assumptions C116_bundled.
(** Settings that meet the hypotheses, and the second slot with the last nature: ordinarily, with Synchronize of another nature,
    with Magnet Pull, and by Rock Smash. *)
Example C116_case :
  let seen r := rmap (map (fun st => (g_species st, g_nature st))) r in
  let g lead := ex_gen lead Encounter_GRASS Game_EMERALD in
  (forall lead, In lead [Lead_NONE; 3; Lead_MAGNET_PULL; Lead_PRESSURE] -> search_ends (g lead) ex_area /\ needs_check (g lead) = false) /\
  option_map species_of (nth_error (slots_of ex_area (w_encounter (g 3))) 1) = Some 3 /\
  seen (wild_generate 2000 junk (g Lead_NONE) 63159 0 0 1 ex_area) = Ok [(3, 24)] /\
  seen (wild_generate 2000 junk (g 3) 2251 0 0 1 ex_area) = Ok [(3, 24)] /\
  seen (wild_generate 2000 junk (g Lead_MAGNET_PULL) 6454 0 0 1 ex_area) = Ok [(3, 24)] /\
  search_ends (ex_gen Lead_NONE Encounter_ROCK_SMASH Game_EMERALD) ex_area /\ needs_check (ex_gen Lead_NONE Encounter_ROCK_SMASH Game_EMERALD) = true /\
  0 < a_rock_rate ex_area /\
  seen (wild_generate 2000 junk (ex_gen Lead_NONE Encounter_ROCK_SMASH Game_EMERALD) 281490 0 0 1 ex_area) = Ok [(2, 24)].
Proof.
  cbv zeta. split.
  { intros lead H. split; [|destruct H as [<-|[<-|[<-|[<-|[]]]]]; reflexivity].
    split; [apply ex_setting|]. split.
    - destruct H as [<-|[<-|[<-|[<-|[]]]]]; repeat constructor; vm_compute; try discriminate; reflexivity.
    - destruct H as [<-|[<-|[<-|[<-|[]]]]]; split; vm_compute; discriminate. }
  do 4 (split; [vm_compute; reflexivity|]). split.
  { split; [apply ex_setting|]. split; [repeat constructor; vm_compute; try discriminate; reflexivity|]. split; vm_compute; discriminate. }
  repeat split; vm_compute; reflexivity.
Qed.
