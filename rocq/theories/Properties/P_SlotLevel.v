(** Property C117: every slot can be met at every level. *)
From Coq Require Import NArith List Bool Lia.
From Verif Require Import Base.Word Model.Gen3State Model.Gen3Area Model.Gen3Wild Model.Bundled3
  Spec.Gen3Spec Spec.Gen3WildSpec Spec.Encounter3Spec
  Proofs.Gen3Props Proofs.Gen3Generate Proofs.OneSeed Proofs.BundledProofs3 Proofs.LevelProofs Properties.P_Gen3 Spec.WildRateSpec.
Import ListNotations.
Open Scope list_scope.
Open Scope N_scope.

(** C117. Whatever the method, the lead (but Cute Charm), the delay and the advance, for every slot of the area and every level from its
    minimum to its maximum some seed gives the Pokemon of this slot at this level. *)
Theorem C117_every_slot_every_level : forall fuel junk g area initial delay,
  length junk = 6%nat -> search_ends g area -> needs_check g = false -> 2^31 <= N.of_nat fuel -> initial + delay < 2^32 ->
  forall k slot level, nth_error (slots_of area (w_encounter g)) k = Some slot -> s_min_level slot <= level <= s_max_level slot ->
  exists seed st, seed < 2^32 /\ wild_generate fuel junk g seed delay initial 1 area = Ok [st] /\
    g_species st = species_of slot /\ g_form st = form_of slot /\ g_level st = level.
Proof. exact slot_and_level. Qed.
Print Assumptions C117_every_slot_every_level.
(** So every seed gives it at some advance. *)
Theorem C117_from_every_seed : forall fuel junk g area seed,
  length junk = 6%nat -> search_ends g area -> needs_check g = false -> 2^31 <= N.of_nat fuel -> seed < 2^32 ->
  forall k slot level, nth_error (slots_of area (w_encounter g)) k = Some slot -> s_min_level slot <= level <= s_max_level slot ->
  exists i st, i < 2^32 /\ wild_generate fuel junk g seed 0 i 1 area = Ok [st] /\ g_advance st = i /\
    g_species st = species_of slot /\ g_form st = form_of slot /\ g_level st = level.
Proof.
  intros fuel junk g area seed J E C F H k slot level K L.
  destruct (C117_every_slot_every_level fuel junk g area 0 0 J E C F eq_refl k slot level K L) as (s & st & Hs & G & A).
  destruct (one_seed_reaches fuel junk g seed s area H Hs) as (i & Hi & Q). rewrite G in Q. exists i, (at_advance i st).
  split; [exact Hi|]. split; [exact Q|]. split; [reflexivity|]. exact A.
Qed.
Print Assumptions C117_from_every_seed.
(** Every Pokemon of the bundled areas can be met at each of its levels. *)
Theorem C117_bundled : forall game ns areas area method encounter lead tid sid fuel junk initial delay,
  In game gen3_games -> bundled game = Ok (ns, areas) -> In area areas ->
  let g := wild_new bundled_tables method encounter lead game tid sid in
  length junk = 6%nat -> needs_check g = false -> w_lead g <> Lead_CUTE_CHARM_M -> w_lead g <> Lead_CUTE_CHARM_F ->
  2^31 <= N.of_nat fuel -> initial + delay < 2^32 ->
  forall slot level, In slot (slots_of area (w_encounter g)) -> s_min_level slot <= level <= s_max_level slot ->
  exists seed st, seed < 2^32 /\ wild_generate fuel junk g seed delay initial 1 area = Ok [st] /\
    g_species st = species_of slot /\ g_form st = form_of slot /\ g_level st = level.
Proof.
  intros game ns areas area method encounter lead tid sid fuel junk initial delay G E Ha g J C L1 L2 F D slot level S L.
  destruct (bundled_setting game ns areas area G E Ha method encounter lead tid sid) as [Se Fo].
  destruct (In_nth_error _ _ S) as [k K].
  apply (C117_every_slot_every_level fuel junk g area initial delay J) with (k := k); try assumption.
  split; [exact Se|]. split; [exact Fo|]. split; assumption.
Qed.
Print Assumptions C117_bundled.
(** Settings that meet the hypotheses, and the first slot, of levels 3 to 7, at level 3 with Magnet Pull and at levels 3 and 7 with
    Pressure. *)
Example C117_case :
  let seen r := rmap (map (fun st => (g_species st, g_level st))) r in
  let g lead := ex_gen lead Encounter_GRASS Game_EMERALD in
  (forall lead, In lead [Lead_NONE; 3; Lead_MAGNET_PULL; Lead_PRESSURE] -> search_ends (g lead) ex_area /\ needs_check (g lead) = false) /\
  option_map (fun s => (s_min_level s, s_max_level s)) (nth_error (slots_of ex_area (w_encounter (g 3))) 0) = Some (3, 7) /\
  seen (wild_generate 2000 junk (g Lead_MAGNET_PULL) 1169987404 0 0 1 ex_area) = Ok [(1, 3)] /\
  seen (wild_generate 2000 junk (g Lead_PRESSURE) 1283545938 0 1 1 ex_area) = Ok [(1, 3)] /\
  seen (wild_generate 2000 junk (g Lead_PRESSURE) 85 0 0 1 ex_area) = Ok [(1, 7)].
Proof.
  cbv zeta. split.
  { intros lead H. split; [|destruct H as [<-|[<-|[<-|[<-|[]]]]]; reflexivity].
    split; [apply ex_setting|]. split.
    - destruct H as [<-|[<-|[<-|[<-|[]]]]]; repeat constructor; vm_compute; try discriminate; reflexivity.
    - destruct H as [<-|[<-|[<-|[<-|[]]]]]; split; vm_compute; discriminate. }
  repeat split; vm_compute; reflexivity.
Qed.
