(** What the functions of Model/Gen3Area.v draw, in terms of numbered rands. *)
From Coq Require Import NArith ZArith List Bool Lia.
From Verif Require Import Base.Word Base.WordLemmas Model.Lcrng32 Model.LcrngClasses
  Model.Gen3State Model.Gen3Area Model.Gen3Wild Spec.LcrngSpec Spec.Gen3Spec Spec.Gen3WildSpec
  Proofs.Gen3AreaProofs.
Import ListNotations.
Ltac Zify.zify_post_hook ::= idtac.
Open Scope N_scope.

Definition opt_res {A} (o : option A) : res A :=
  match o with Some a => Ok a | None => Raise IndexError end.

Lemma table_of_get ranges r : increasing_to_100 0 ranges -> r < 100 ->
  agetr (table_of ranges) (N.to_nat r) = Ok (slot_one_early ranges (Z.of_N r)).
Proof.
  intros H Hr. unfold table_of.
  destruct (c44_actual (repeat 0 100) ranges (repeat_length _ _) H) as (t & E & L & G).
  rewrite E. unfold agetr.
  rewrite (nth_error_nth' t 0) by lia. unfold aget in G. now rewrite G.
Qed.

Lemma pick_steps slots ranges k s : s < 2^32 -> increasing_to_100 0 ranges ->
  pick slots (table_of ranges) (steps k s) =
    (steps (k + 1) s,
     opt_res (nth_error slots (N.to_nat (slot_one_early ranges (Z.of_N (rand_at s (k + 1) mod 100)))))).
Proof.
  intros Hs H. unfold pick, hslot_rand. rewrite const_rand_steps by (try assumption; lia).
  cbn [sbind]. rewrite table_of_get; [|assumption|apply N.mod_lt; discriminate].
  reflexivity.
Qed.

Lemma cumulative_ok e : increasing_to_100 0 (cumulative_of e).
Proof.
  unfold cumulative_of.
  destruct (e =? Encounter_OLD_ROD); [cbn; lia|]. destruct (e =? Encounter_GOOD_ROD); [cbn; lia|].
  destruct (e =? Encounter_SUPER_ROD); [cbn; lia|]. destruct (e =? Encounter_ROCK_SMASH); [cbn; lia|].
  destruct (e =? Encounter_SURFING); cbn; lia.
Qed.

Lemma hslot_pick area rng e :
  calculate_hslot area rng e = pick (slots_of area e) (table_of (cumulative_of e)) rng.
Proof.
  unfold calculate_hslot, slots_of, cumulative_of.
  destruct (e =? Encounter_OLD_ROD); [reflexivity|]. destruct (e =? Encounter_GOOD_ROD); [reflexivity|].
  destruct (e =? Encounter_SUPER_ROD); [reflexivity|]. destruct (e =? Encounter_ROCK_SMASH); [reflexivity|].
  destruct (e =? Encounter_SURFING); reflexivity.
Qed.

Lemma slots_length area e : area_shape area -> length (slots_of area e) = length (cumulative_of e).
Proof.
  intros (H1 & H2 & H3 & H4 & H5 & H6). unfold slots_of, cumulative_of.
  destruct (e =? Encounter_OLD_ROD); [exact H4|]. destruct (e =? Encounter_GOOD_ROD); [exact H5|].
  destruct (e =? Encounter_SUPER_ROD); [exact H6|]. destruct (e =? Encounter_ROCK_SMASH); [exact H3|].
  destruct (e =? Encounter_SURFING); [exact H2|exact H1].
Qed.

Lemma slot_one_early_lt l r : l <> [] -> (N.to_nat (slot_one_early l r) < length l)%nat.
Proof.
  induction l as [|c [|c' rest] IH]; intros H; [contradiction|cbn; lia|].
  change (slot_one_early (c :: c' :: rest) r)
    with (if (r + 1 <? c)%Z then 0 else 1 + slot_one_early (c' :: rest) r).
  change (length (c :: c' :: rest)) with (S (length (c' :: rest))).
  destruct (r + 1 <? c)%Z; [cbn; lia|].
  specialize (IH ltac:(discriminate)). lia.
Qed.

(** The slot an ordinary roll picks. *)
Definition ordinary (area : area3) (e r : N) : option slot3 :=
  nth_error (slots_of area e) (N.to_nat (slot_one_early (cumulative_of e) (Z.of_N (r mod 100)))).
Lemma ordinary_some area e r : area_shape area ->
  exists sl, ordinary area e r = Some sl /\ In sl (slots_of area e).
Proof.
  intros H. unfold ordinary.
  assert (L : (N.to_nat (slot_one_early (cumulative_of e) (Z.of_N (r mod 100))) < length (slots_of area e))%nat).
  { rewrite slots_length by exact H. apply slot_one_early_lt.
    pose proof (cumulative_ok e) as K. intros E. rewrite E in K. exact K. }
  destruct (nth_error (slots_of area e) _) as [sl|] eqn:E.
  - exists sl. split; [reflexivity|]. eapply nth_error_In. exact E.
  - apply nth_error_None in E. lia.
Qed.

Lemma hslot_steps area e k s : s < 2^32 ->
  calculate_hslot area (steps k s) e =
    (steps (k + 1) s, opt_res (ordinary area e (rand_at s (k + 1)))).
Proof. intros Hs. rewrite hslot_pick. apply pick_steps; [exact Hs|apply cumulative_ok]. Qed.

(** With a lead. *)
Lemma hslot_lead_steps area g mods k s : s < 2^32 -> N.of_nat (length mods) < 65536 ->
  calculate_hslot_lead area (steps k s) (w_encounter g) (w_lead g) mods =
    let '(sl, p) := slot_choice (rand_at s) g area mods k in (steps p s, opt_res sl).
Proof.
  intros Hs Hm. unfold calculate_hslot_lead, slot_choice. cbv zeta.
  destruct ((w_lead g =? Lead_MAGNET_PULL) || (w_lead g =? Lead_STATIC)).
  - unfold rand_2. rewrite const_rand_steps by (try assumption; lia). cbn [sbind].
    destruct ((rand_at s (k + 1) mod 2 =? 0) && negb (length mods =? 0)%nat) eqn:E.
    + apply andb_prop in E. destruct E as [_ E]. apply negb_true_iff, Nat.eqb_neq in E.
      rewrite poke_rand_steps by (try assumption; lia). cbn [sbind].
      replace (k + 1 + 1) with (k + 2) by lia. reflexivity.
    + rewrite hslot_steps by exact Hs. unfold ordinary.
      replace (k + 1 + 1) with (k + 2) by lia. reflexivity.
  - rewrite hslot_steps by exact Hs. reflexivity.
Qed.

(** * Levels *)
Lemma level_steps g sl k s : s < 2^32 -> slot_ok sl ->
  calculate_level sl (steps k s) (w_lead g =? Lead_PRESSURE) =
    let '(l, p) := level_choice (rand_at s) g sl k in (steps p s, Ok l).
Proof.
  intros Hs (H1 & H2 & _). unfold calculate_level, level_choice. cbv zeta.
  assert (E : w64 (sub64 (s_max_level sl) (s_min_level sl) + 1) = s_max_level sl - s_min_level sl + 1).
  { assert (E0 : sub64 (s_max_level sl) (s_min_level sl) = s_max_level sl - s_min_level sl).
    { unfold sub64, w64. rewrite (N.mod_small (s_min_level sl)) by lia.
      replace (s_max_level sl + (18446744073709551616 - s_min_level sl))
        with (s_max_level sl - s_min_level sl + 1 * 18446744073709551616) by lia.
      rewrite N.mod_add by lia. apply N.mod_small. lia. }
    rewrite E0. apply N.mod_small. lia. }
  rewrite E. rewrite poke_rand_steps by (try assumption; lia). cbn [sbind].
  destruct (w_lead g =? Lead_PRESSURE); [|reflexivity].
  unfold rand_2. rewrite const_rand_steps by (try assumption; lia). cbn [sbind].
  replace (k + 1 + 1) with (k + 2) by lia.
  destruct (rand_at s (k + 2) mod 2 =? 0); [reflexivity|].
  set (r := rand_at s (k + 1) mod (s_max_level sl - s_min_level sl + 1)).
  destruct (N.eqb_spec r 0) as [->|N]; reflexivity.
Qed.

Lemma level_choice_range x g sl k : slot_ok sl ->
  s_min_level sl <= fst (level_choice x g sl k) <= s_max_level sl.
Proof.
  intros (H1 & H2 & _). unfold level_choice. cbv zeta.
  assert (L : x (k + 1) mod (s_max_level sl - s_min_level sl + 1) < s_max_level sl - s_min_level sl + 1)
    by (apply N.mod_lt; lia).
  set (r := x (k + 1) mod (s_max_level sl - s_min_level sl + 1)) in *.
  destruct (w_lead g =? Lead_PRESSURE); cbn [fst]; [|lia].
  destruct (x (k + 2) mod 2 =? 0); lia.
Qed.

(** * Modified slots *)
Lemma species_mask sl : species_of sl < 1024 -> N.land (s_species sl) 0x3FF = species_of sl.
Proof.
  unfold species_of. intros H. change 0x3FF with (N.ones 10). rewrite N.land_ones.
  change (2^10) with 1024.
  rewrite <- (N.mod_small (s_species sl mod 2048) 1024) by exact H.
  change 2048 with (1024 * 2). rewrite N.mod_mul_r by lia.
  rewrite N.mul_comm, N.mod_add by lia. now rewrite N.mod_mod.
Qed.

Lemma matching_ok slots t table :
  N.of_nat (length table) <= 1024 ->
  Forall (fun sl => species_of sl < N.of_nat (length table)) slots ->
  matching_slots slots t table = Ok (filter (has_type table t) slots).
Proof.
  intros HL H. induction H as [|sl rest H1 H2 IH]; [reflexivity|].
  cbn [matching_slots filter]. rewrite species_mask by lia. unfold has_type at 1.
  destruct (nth_error table (N.to_nat (species_of sl))) as [i|] eqn:E.
  - rewrite IH. cbn [rmap]. destruct ((pi_type_1 i =? t) || (pi_type_2 i =? t)); reflexivity.
  - apply nth_error_None in E. lia.
Qed.

Lemma modified_ok area e lead game table :
  N.of_nat (length table) <= 1024 ->
  Forall (fun sl => species_of sl < N.of_nat (length table)) (slots_of area e) ->
  get_modified_slots area e lead game table =
    Ok (match lead_type lead game with
        | Some t => filter (has_type table t) (slots_of area e)
        | None => []
        end).
Proof.
  intros HL H. unfold get_modified_slots. destruct (lead_type lead game) as [t|]; [|reflexivity].
  rewrite <- (matching_ok _ t table HL H). unfold slots_of.
  destruct (e =? Encounter_OLD_ROD); [reflexivity|]. destruct (e =? Encounter_GOOD_ROD); [reflexivity|].
  destruct (e =? Encounter_SUPER_ROD); [reflexivity|]. destruct (e =? Encounter_ROCK_SMASH); [reflexivity|].
  destruct (e =? Encounter_SURFING); reflexivity.
Qed.
