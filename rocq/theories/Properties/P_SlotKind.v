(** Property C118: every slot can be met with every nature, gender and ability. *)
From Coq Require Import NArith List Bool Lia.
From Verif Require Import Base.Word Model.Gen3State Model.Gen3Area Model.Gen3Wild Model.Bundled3
  Spec.Gen3Spec Spec.Gen3WildSpec Spec.Encounter3Spec Spec.KindSpec
  Proofs.Gen3Props Proofs.Gen3Generate Proofs.OneSeed Proofs.BundledLit3 Proofs.BundledProofs3 Proofs.KindProofs Properties.P_Gen3 Spec.WildRateSpec.
Import ListNotations.
Open Scope list_scope.
Open Scope N_scope.

(** C118. Whatever the method, the lead (but Cute Charm), the delay and the advance, for every slot of the area (but Unown), every
    nature, every gender of its species and each of the two abilities some seed gives the Pokemon of this slot with all three. *)
Theorem C118_every_kind : forall fuel junk g area initial delay,
  length junk = 6%nat -> search_ends g area -> needs_check g = false -> 2^31 <= N.of_nat fuel -> initial + delay < 2^32 ->
  forall k slot info n x b, nth_error (slots_of area (w_encounter g)) k = Some slot -> species_of slot <> 201 ->
  nth_error (w_table g) (N.to_nat (species_of slot)) = Some info -> usual_ratio (pi_gender_ratio info) -> has_gender (pi_gender_ratio info) x ->
  n < 25 -> b < 2 ->
  exists seed st, seed < 2^32 /\ wild_generate fuel junk g seed delay initial 1 area = Ok [st] /\
    g_species st = species_of slot /\ g_form st = form_of slot /\ g_nature st = n /\ g_gender st = gender_code x /\ g_ability st = b /\
    g_ability_index st = (if b =? 0 then pi_ability_1 info else pi_ability_2 info).
Proof.
  intros fuel junk g area initial delay J E C F D k slot info n x b K U I R G N B.
  destruct (slot_and_kind fuel junk g area initial delay J E C F D k slot n (match x with Male => true | _ => false end) b K U N B)
    as (seed & st & info' & Hs & W & A1 & A2 & A3 & A4 & A5 & A6 & A7 & A8).
  rewrite I in A6. injection A6 as <-. exists seed, st. repeat (split; [assumption|]). split; [|split; assumption].
  rewrite A7. f_equal. unfold gender_of, usual_ratio, has_gender in *. set (r := pi_gender_ratio info) in *. clearbody r.
  set (p := g_pid st mod 256) in *. clearbody p. clear - R G A5.
  destruct (N.eqb_spec r 255), (N.eqb_spec r 254), (N.eqb_spec r 0), (N.ltb_spec p r); destruct x; (reflexivity || exfalso; lia).
Qed.
Print Assumptions C118_every_kind.
(** So every seed gives it at some advance. *)
Theorem C118_from_every_seed : forall fuel junk g area seed,
  length junk = 6%nat -> search_ends g area -> needs_check g = false -> 2^31 <= N.of_nat fuel -> seed < 2^32 ->
  forall k slot info n x b, nth_error (slots_of area (w_encounter g)) k = Some slot -> species_of slot <> 201 ->
  nth_error (w_table g) (N.to_nat (species_of slot)) = Some info -> usual_ratio (pi_gender_ratio info) -> has_gender (pi_gender_ratio info) x ->
  n < 25 -> b < 2 ->
  exists i st, i < 2^32 /\ wild_generate fuel junk g seed 0 i 1 area = Ok [st] /\ g_advance st = i /\
    g_species st = species_of slot /\ g_form st = form_of slot /\ g_nature st = n /\ g_gender st = gender_code x /\ g_ability st = b /\
    g_ability_index st = (if b =? 0 then pi_ability_1 info else pi_ability_2 info).
Proof.
  intros fuel junk g area seed J E C F H k slot info n x b K U I R G N B.
  destruct (C118_every_kind fuel junk g area 0 0 J E C F eq_refl k slot info n x b K U I R G N B) as (s & st & Hs & W & A).
  destruct (one_seed_reaches fuel junk g seed s area H Hs) as (i & Hi & Q). rewrite W in Q. exists i, (at_advance i st).
  split; [exact Hi|]. split; [exact Q|]. split; [reflexivity|]. exact A.
Qed.
Print Assumptions C118_from_every_seed.
(** All species of the bundled personal tables have such ratios. *)
Theorem C118_ratios : forall game info, In info (get_info_table_3 bundled_tables game) -> usual_ratio (pi_gender_ratio info).
Proof.
  intros game info.
  assert (G : forall t, forallb (fun i => let r := pi_gender_ratio i in (r =? 0) || (r =? 254) || (r =? 255) || ((31 <=? r) && (r <=? 225))) t = true ->
    In info t -> usual_ratio (pi_gender_ratio info)).
  { intros t H I. rewrite forallb_forall in H. specialize (H info I). cbv beta zeta in H.
    rewrite !orb_true_iff, andb_true_iff, !N.eqb_eq, !N.leb_le in H. unfold usual_ratio. tauto. }
  rewrite tables_ok. unfold get_info_table_3.
  destruct (negb _); [apply G; vm_compute; reflexivity|].
  destruct (negb _); [apply G; vm_compute; reflexivity|].
  destruct (negb _); apply G; vm_compute; reflexivity.
Qed.
Print Assumptions C118_ratios.
(** So every Pokemon of the bundled areas can be met with every nature, gender and ability. *)
Theorem C118_bundled : forall game ns areas area method encounter lead tid sid fuel junk initial delay,
  In game gen3_games -> bundled game = Ok (ns, areas) -> In area areas ->
  let g := wild_new bundled_tables method encounter lead game tid sid in
  length junk = 6%nat -> needs_check g = false -> w_lead g <> Lead_CUTE_CHARM_M -> w_lead g <> Lead_CUTE_CHARM_F ->
  2^31 <= N.of_nat fuel -> initial + delay < 2^32 ->
  forall slot info n x b, In slot (slots_of area (w_encounter g)) -> species_of slot <> 201 ->
  nth_error (w_table g) (N.to_nat (species_of slot)) = Some info -> has_gender (pi_gender_ratio info) x -> n < 25 -> b < 2 ->
  exists seed st, seed < 2^32 /\ wild_generate fuel junk g seed delay initial 1 area = Ok [st] /\
    g_species st = species_of slot /\ g_form st = form_of slot /\ g_nature st = n /\ g_gender st = gender_code x /\ g_ability st = b /\
    g_ability_index st = (if b =? 0 then pi_ability_1 info else pi_ability_2 info).
Proof.
  intros game ns areas area method encounter lead tid sid fuel junk initial delay G E Ha g J C L1 L2 F D slot info n x b S U I X N B.
  destruct (bundled_setting game ns areas area G E Ha method encounter lead tid sid) as [Se Fo].
  destruct (In_nth_error _ _ S) as [k K].
  apply (C118_every_kind fuel junk g area initial delay J) with (k := k); try assumption.
  - split; [exact Se|]. split; [exact Fo|]. split; assumption.
  - apply (C118_ratios (w8 game)). apply nth_error_In in I. exact I.
Qed.
Print Assumptions C118_bundled.
(** Settings that meet the hypotheses, and the first slot with the last nature: female with the first ability, male with the second. *)
Example C118_case :
  let seen r := rmap (map (fun st => (g_species st, g_nature st, g_gender st, g_ability st))) r in
  let g lead := ex_gen lead Encounter_GRASS Game_EMERALD in
  (forall lead, In lead [Lead_NONE; 3; Lead_MAGNET_PULL; Lead_PRESSURE] -> search_ends (g lead) ex_area /\ needs_check (g lead) = false) /\
  option_map species_of (nth_error (slots_of ex_area (w_encounter (g 3))) 0) = Some 1 /\
  option_map pi_gender_ratio (nth_error (w_table (g 3)) 1) = Some 127 /\ usual_ratio 127 /\ has_gender 127 Male /\ has_gender 127 Female /\
  seen (wild_generate 2000 junk (g Lead_NONE) 3308230214 0 0 1 ex_area) = Ok [(1, 24, 1, 0)] /\
  seen (wild_generate 2000 junk (g 3) 3035147732 0 0 1 ex_area) = Ok [(1, 24, 0, 1)] /\
  seen (wild_generate 2000 junk (g Lead_MAGNET_PULL) 2552930746 0 0 1 ex_area) = Ok [(1, 24, 0, 1)].
Proof.
  cbv zeta. split.
  { intros lead H. split; [|destruct H as [<-|[<-|[<-|[<-|[]]]]]; reflexivity].
    split; [apply ex_setting|]. split.
    - destruct H as [<-|[<-|[<-|[<-|[]]]]]; repeat constructor; vm_compute; try discriminate; reflexivity.
    - destruct H as [<-|[<-|[<-|[<-|[]]]]]; split; vm_compute; discriminate. }
  split; [reflexivity|]. split; [vm_compute; reflexivity|]. split; [right; right; right; split; discriminate|].
  split; [split; discriminate|]. split; [split; discriminate|]. repeat split; vm_compute; reflexivity.
Qed.
