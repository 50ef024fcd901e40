(** Property C113: which PIDs and IVs can be met does not depend on the place. *)
From Coq Require Import NArith List Bool Lia.
From Verif Require Import Base.Word Model.Gen3State Model.Gen3Area Model.Gen3Wild Model.Bundled3
  Spec.Gen3Spec Spec.Gen3WildSpec Spec.WildRateSpec Spec.SisterSpec Spec.Encounter3Spec Spec.PlaceSpec
  Proofs.Gen3Props Proofs.BundledProofs3 Proofs.PlaceProofs Proofs.PlaceCount Properties.P_Gen3.
Import ListNotations.
Open Scope list_scope.
Open Scope N_scope.

(** C113. If some seed gives a PID with some IVs at one place, some seed does so at any other, with the same method and leads that
    treat natures alike, whatever the games, encounter types, trainers, delays and advances. *)
Theorem C113_place_does_not_matter : forall fuel junk fuel' junk' g area delay initial g' area' delay' initial' pid ivs,
  length junk = 6%nat -> length junk' = 6%nat -> 2^31 <= N.of_nat fuel -> 2^31 <= N.of_nat fuel' ->
  initial + delay < 2^32 -> initial' + delay' < 2^32 -> plain_place g area -> plain_place g' area' ->
  same_natures g g' -> w_method g = w_method g' ->
  (can_be_met fuel junk g area delay initial pid ivs <-> can_be_met fuel' junk' g' area' delay' initial' pid ivs).
Proof. exact place_independent. Qed.
Print Assumptions C113_place_does_not_matter.
(** They are what follows from any of the 2^32 seeds. *)
Theorem C113_exactly : forall fuel junk g area initial delay,
  length junk = 6%nat -> plain_place g area -> 2^31 <= N.of_nat fuel -> initial + delay < 2^32 -> forall pid ivs,
  can_be_met fuel junk g area delay initial pid ivs <-> exists t, t < 2^32 /\ met g t pid ivs.
Proof. exact met_iff. Qed.
Print Assumptions C113_exactly.
(** Any PID and IVs made after a seed whose upper half is even can be met with Synchronize of their nature: half of all. *)
Theorem C113_synchronize : forall fuel junk g area delay initial t,
  length junk = 6%nat -> 2^31 <= N.of_nat fuel -> initial + delay < 2^32 -> plain_place g area ->
  t < 2^32 -> w_lead g = first_pid t mod 25 -> t / 65536 mod 2 = 0 ->
  can_be_met fuel junk g area delay initial (first_pid t) (ivs_from (rand_at t (iv1_pos g 2)) (rand_at t (iv2_pos g 2))).
Proof. exact sync_meets. Qed.
Print Assumptions C113_synchronize.
(** Without Synchronize, any made after a seed whose upper half has their nature. *)
Theorem C113_no_synchronize : forall fuel junk g area delay initial t,
  length junk = 6%nat -> 2^31 <= N.of_nat fuel -> initial + delay < 2^32 -> plain_place g area ->
  t < 2^32 -> Lead_SYNCHRONIZE_QUIRKY < w_lead g -> t / 65536 mod 25 = first_pid t mod 25 ->
  can_be_met fuel junk g area delay initial (first_pid t) (ivs_from (rand_at t (iv1_pos g 2)) (rand_at t (iv2_pos g 2))).
Proof. exact plain_meets. Qed.
Print Assumptions C113_no_synchronize.
(** Every bundled area is such a place where it has no Unown, without Cute Charm, but for Rock Smash in Ruby, Sapphire and Emerald. *)
Theorem C113_bundled : forall game ns areas area method encounter lead tid sid,
  In game gen3_games -> bundled game = Ok (ns, areas) -> In area areas ->
  let g := wild_new bundled_tables method encounter lead game tid sid in
  needs_check g = false -> w_lead g <> Lead_CUTE_CHARM_M -> w_lead g <> Lead_CUTE_CHARM_F ->
  Forall (fun slot => species_of slot <> 201) (slots_of area (w_encounter g)) -> plain_place g area.
Proof.
  intros game ns areas area method encounter lead tid sid G E Ha g Hc L1 L2 U.
  destruct (bundled_setting game ns areas area G E Ha method encounter lead tid sid) as [S F].
  split; [|split; [exact Hc|exact U]]. split; [exact S|]. split; [exact F|]. split; assumption.
Qed.
Print Assumptions C113_bundled.
(** No place has more than six PIDs with the same IVs (C114 has a case of six). *)
Theorem C113_at_most_six_pids : forall fuel junk g area delay initial,
  length junk = 6%nat -> 2^31 <= N.of_nat fuel -> initial + delay < 2^32 -> plain_place g area ->
  forall ivs l, NoDup l -> (forall pid, In pid l -> can_be_met fuel junk g area delay initial pid ivs) -> (length l <= 6)%nat.
Proof. exact six_pids. Qed.
Print Assumptions C113_at_most_six_pids.
(** No place has more than three combinations of IVs with the same PID. *)
Theorem C113_at_most_three_ivs : forall fuel junk g area delay initial,
  length junk = 6%nat -> 2^31 <= N.of_nat fuel -> initial + delay < 2^32 -> plain_place g area ->
  forall pid l, NoDup l -> (forall ivs, In ivs l -> can_be_met fuel junk g area delay initial pid ivs) -> (length l <= 3)%nat.
Proof. exact three_ivs. Qed.
Print Assumptions C113_at_most_three_ivs.
(** Places that meet the hypotheses, with Synchronize (Emerald) and without (FireRed, which ignores leads), and a Pokemon with the
    same PID and IVs at two of them. *)
Example C113_case :
  let t := 0x12345678 in
  let g := ex_gen 15 Encounter_SURFING Game_EMERALD in
  let g' := ex_gen 15 Encounter_OLD_ROD Game_EMERALD in
  let found r := rmap (map (fun st => (g_pid st, g_ivs st))) r = Ok [(2229930865, [10; 12; 22; 7; 29; 0])] in
  plain_place g ex_area /\ plain_place g' ex_area /\ plain_place (ex_gen 15 Encounter_OLD_ROD Game_FIRE_RED) ex_area /\ same_natures g g' /\
  same_natures (ex_gen Lead_NONE Encounter_SURFING Game_EMERALD) (ex_gen 15 Encounter_OLD_ROD Game_FIRE_RED) /\ w_method g = w_method g' /\
  w_lead g = first_pid t mod 25 /\ t / 65536 mod 2 = 0 /\
  (first_pid t, ivs_from (rand_at t (iv1_pos g 2)) (rand_at t (iv2_pos g 2))) = (2229930865, [10; 12; 22; 7; 29; 0]) /\
  found (wild_generate 2000 junk g 687875895 0 0 1 ex_area) /\ found (wild_generate 2000 junk g' 687875895 0 0 1 ex_area).
Proof.
  assert (K : forall lead e game, In e [Encounter_SURFING; Encounter_OLD_ROD] -> In game [Game_EMERALD; Game_FIRE_RED] ->
    w_lead (ex_gen lead e game) <> Lead_CUTE_CHARM_M ->
    w_lead (ex_gen lead e game) <> Lead_CUTE_CHARM_F -> plain_place (ex_gen lead e game) ex_area).
  { intros lead e game He Hg A B. split; [|split].
    - split; [apply ex_setting|]; (split; [|split; assumption]). destruct He as [<-|[<-|[]]], Hg as [<-|[<-|[]]];
    repeat constructor; vm_compute; try discriminate; reflexivity.
    - destruct He as [<-|[<-|[]]], Hg as [<-|[<-|[]]]; reflexivity.
    - destruct He as [<-|[<-|[]]]; repeat constructor; vm_compute; discriminate. }
  cbv zeta. do 3 (split; [apply K; cbn; auto; vm_compute; discriminate|]).
  split; [left; reflexivity|]. split; [right; split; vm_compute; reflexivity|]. repeat split; vm_compute; reflexivity.
Qed.
