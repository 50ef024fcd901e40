(** C101: what the settings of the wild generator change. *)
From Coq Require Import NArith List Bool Lia.
From Verif Require Import Base.Word Model.Gen3State Model.Gen3Area Model.Gen3Wild
  Spec.Gen3WildSpec Spec.SettingsSpec Proofs.SettingsProofs Properties.P_Gen3.
Import ListNotations.
Open Scope N_scope.

(** C101. The trainer's ids decide the shininess and nothing else, exceptions included; and they
    count only by their xor. *)
Theorem C101_trainer : forall fuel junk t method encounter lead game tid sid tid' sid' seed delay initial max area,
  rmap (map without_shiny) (wild_generate fuel junk (wild_new t method encounter lead game tid sid) seed delay initial max area) =
  rmap (map without_shiny) (wild_generate fuel junk (wild_new t method encounter lead game tid' sid') seed delay initial max area).
Proof. exact trainer_only_shiny. Qed.
Print Assumptions C101_trainer.
Theorem C101_trainer_xor : forall fuel junk t method encounter lead game tid sid tid' sid' seed delay initial max area,
  N.lxor tid sid = N.lxor tid' sid' ->
  wild_generate fuel junk (wild_new t method encounter lead game tid sid) seed delay initial max area =
  wild_generate fuel junk (wild_new t method encounter lead game tid' sid') seed delay initial max area.
Proof. intros * H. unfold wild_new. now rewrite H. Qed.
Print Assumptions C101_trainer_xor.

(** The method decides the IVs and what is computed from them, and nothing else. *)
Theorem C101_method : forall fuel junk t method method' encounter lead game tid sid seed delay initial max area,
  length junk = 6%nat ->
  rmap (map without_ivs) (wild_generate fuel junk (wild_new t method encounter lead game tid sid) seed delay initial max area) =
  rmap (map without_ivs) (wild_generate fuel junk (wild_new t method' encounter lead game tid sid) seed delay initial max area).
Proof. intros * Hj. apply method_only_ivs; [exact Hj|]. intros r1 r2 r3 st st' E _ _. exact E. Qed.
Print Assumptions C101_method.
(** Methods 1 and 4 have the same first three IVs, methods 2 and 4 the same last three, and the
    first three of method 2 are the last three of method 1. *)
Theorem C101_method_halves : forall fuel junk t encounter lead game tid sid seed delay initial max area,
  length junk = 6%nat ->
  let states method := wild_generate fuel junk (wild_new t method encounter lead game tid sid) seed delay initial max area in
  rmap (map first_draw) (states 1) = rmap (map first_draw) (states 4) /\
  rmap (map second_draw) (states 3) = rmap (map second_draw) (states 4) /\
  rmap (map second_draw) (states 1) = rmap (map first_draw) (states 3).
Proof.
  intros * Hj states. split; [|split]; (apply method_only_ivs; [exact Hj|]);
    intros r1 r2 r3 st st' _ E E'; unfold first_draw, second_draw; rewrite E, E'; exact eq_refl.
Qed.
Print Assumptions C101_method_halves.
(** Any method but 2 and 4 is method 1. *)
Theorem C101_other_methods : forall fuel junk t method encounter lead game tid sid seed delay initial max area,
  method < 256 -> method <> 3 -> method <> 4 ->
  wild_generate fuel junk (wild_new t method encounter lead game tid sid) seed delay initial max area =
  wild_generate fuel junk (wild_new t 1 encounter lead game tid sid) seed delay initial max area.
Proof. exact other_methods. Qed.
Print Assumptions C101_other_methods.

(** A lead counts only in Emerald, *)
Theorem C101_lead_elsewhere : forall fuel junk t method encounter lead lead' game tid sid seed delay initial max area,
  N.testbit game 2 = false ->
  wild_generate fuel junk (wild_new t method encounter lead game tid sid) seed delay initial max area =
  wild_generate fuel junk (wild_new t method encounter lead' game tid sid) seed delay initial max area.
Proof. intros * H. now rewrite (lead_elsewhere t method encounter lead lead' game tid sid H). Qed.
Print Assumptions C101_lead_elsewhere.
(** and there only if it is Synchronize (0 to 24), Cute Charm (25, 26), Magnet Pull (27), Static (28)
    or Pressure (32); any other is as none (255). *)
Theorem C101_idle_leads : forall fuel junk t method encounter lead game tid sid seed delay initial max area,
  lead < 256 -> 29 <= lead -> lead <> 32 ->
  setting_ok (wild_new t method encounter lead game tid sid) area ->
  wild_generate fuel junk (wild_new t method encounter lead game tid sid) seed delay initial max area =
  wild_generate fuel junk (wild_new t method encounter 255 game tid sid) seed delay initial max area.
Proof.
  intros fuel junk t method encounter lead game tid sid seed delay initial max area H1 H2 H3 Hs.
  refine (idle_leads fuel junk (wild_new t method encounter lead game tid sid) (wild_new t method encounter 255 game tid sid)
    seed delay initial max area eq_refl eq_refl eq_refl eq_refl eq_refl Hs _).
  intros l [->| ->]; cbn [w_lead wild_new]; destruct (negb _).
  - unfold w8. rewrite N.mod_small by exact H1. now split.
  - split; discriminate.
  - split; discriminate.
  - split; discriminate.
Qed.
Print Assumptions C101_idle_leads.

(** Ruby and Sapphire generate the same from the same area, with any leads. *)
Theorem C101_ruby_sapphire : forall fuel junk t method encounter lead lead' tid sid seed delay initial max area,
  wild_generate fuel junk (wild_new t method encounter lead Game_RUBY tid sid) seed delay initial max area =
  wild_generate fuel junk (wild_new t method encounter lead' Game_SAPPHIRE tid sid) seed delay initial max area.
Proof. exact ruby_sapphire. Qed.
Print Assumptions C101_ruby_sapphire.

(** The first state of seed 7 in the three methods; and a trainer for whom it is shiny. *)
Example C101_case :
  let states method tid sid :=
    rmap (map (fun st => (g_pid st, g_ivs st, g_shiny st)))
      (wild_generate 2000 junk (wild_new ex_tables method Encounter_GRASS 3 Game_EMERALD tid sid) 7 0 0 1 ex_area) in
  states 1 0 0 = Ok [(3952866471, [24; 2; 26; 18; 24; 19], 0)] /\
  states 3 0 0 = Ok [(3952866471, [19; 18; 24; 1; 6; 17], 0)] /\
  states 4 0 0 = Ok [(3952866471, [24; 2; 26; 1; 6; 17], 0)] /\
  states 1 7996 0 = Ok [(3952866471, [24; 2; 26; 18; 24; 19], 2)].
Proof. vm_compute. tauto. Qed.

(** Suction Cups (33) in Emerald does nothing there, Synchronize (3) does. *)
Example C101_lead_case :
  let states lead := rmap (map g_pid) (wild_generate 2000 junk (ex_gen lead Encounter_GRASS Game_EMERALD) 7 0 0 1 ex_area) in
  setting_ok (ex_gen 33 Encounter_GRASS Game_EMERALD) ex_area /\
  states 33 = Ok [2017884403] /\ states 255 = Ok [2017884403] /\ states 3 = Ok [3952866471].
Proof. intros states. split; [apply ex_setting|]. vm_compute. tauto. Qed.
