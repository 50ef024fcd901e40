(** Property C115: every trainer can meet a shiny Pokemon at every place. *)
From Coq Require Import NArith List Bool Lia.
From Verif Require Import Base.Word Model.Gen3State Model.Gen3Area Model.Gen3Wild
  Spec.Gen3Spec Spec.Gen3WildSpec Spec.WildRateSpec Spec.PlaceSpec
  Proofs.ShinyProofs Properties.P_Gen3 Properties.P_Place.
Import ListNotations.
Open Scope list_scope.
Open Scope N_scope.

(** C115. Whatever the trainer's two ids, the method, lead, delay and advance, some seed gives a shiny Pokemon (star or square). *)
Theorem C115_shiny_for_every_trainer : forall fuel junk t method encounter lead game tid sid area delay initial,
  let g := wild_new t method encounter lead game tid sid in
  length junk = 6%nat -> 2^31 <= N.of_nat fuel -> initial + delay < 2^32 -> plain_place g area ->
  exists seed st, seed < 2^32 /\ wild_generate fuel junk g seed delay initial 1 area = Ok [st] /\ (g_shiny st = 1 \/ g_shiny st = 2).
Proof. exact shiny_state. Qed.
Print Assumptions C115_shiny_for_every_trainer.
(** The ids of the examples (12345 and 54321): such a seed with Synchronize, and one without. C113_case has places that meet the
    hypotheses. *)
Example C115_case :
  let shiny g s := rmap (map g_shiny) (wild_generate 2000 junk g s 0 0 1 ex_area) in
  shiny (ex_gen 15 Encounter_SURFING Game_EMERALD) 807034050 = Ok [1] /\
  shiny (ex_gen Lead_NONE Encounter_OLD_ROD Game_RUBY) 2206792461 = Ok [1].
Proof. split; vm_compute; reflexivity. Qed.
