(** C59 and C61: Legends Arceus areas. *)
From Coq Require Import NArith ZArith QArith List Bool Lia Lqa SpecFloat.
From Verif Require Import Base.Word Model.Flatbuf Model.FbsLA Model.EncounterLA
  Spec.FloatSpec Spec.FlatbufSpec Spec.FbsLASpec Spec.EncounterLASpec
  Proofs.FlatbufProofs Proofs.FbsLAProofs Proofs.EncounterLAProofs Proofs.CalcSlotProofs Proofs.CalcSlotMono
  Proofs.FlatbufCheck Proofs.FbsCase.
Import ListNotations.
Open Scope Q_scope.

(** C59. For every rand that is a binary32 number from 0 to below 1, if some slot has weight then
    calc_slot returns a slot with weight, and the slot's interval contains rand: the weights before
    it sum up to at most rand times the total, and with its own weight to more. Both up to the
    rounding of binary64: 2 n + 4 relative errors of 2^-53 for n slots. *)
Theorem C59_choice_partial : forall a time weather rand, weights_ok time weather (al_slots a) ->
  let w := map (weight time weather) (al_slots a) in
  let n := length (al_slots a) in
  let r := value rand in
  (Z.of_nat n <= 2 ^ 20)%Z -> 0 < sum w -> float32 rand -> 0 <= r -> r < 1 ->
  exists i s, calc_slot Numba a rand time weather = Ok s /\ nth_error (al_slots a) i = Some s /\
    0 < weight time weather s /\
    power (1 - ulp) 2 * sum (firstn i w) <= power (1 + ulp) (2 * n + 2) * (r * sum w) /\
    power (1 - ulp) (2 * n + 2) * (r * sum w) < power (1 + ulp) 2 * sum (firstn (S i) w).
Proof. exact (fun a time weather rand => calc_slot_bounds time weather a rand). Qed.
Print Assumptions C59_choice_partial.

(** Slot [i] is returned for all rands in its interval, up to the same rounding at both ends. *)
Theorem C59_interval : forall a time weather rand i s, weights_ok time weather (al_slots a) ->
  let w := map (weight time weather) (al_slots a) in
  let n := length (al_slots a) in
  let r := value rand in
  (Z.of_nat n <= 2 ^ 20)%Z -> float32 rand -> 0 <= r -> r < 1 -> nth_error (al_slots a) i = Some s ->
  power (1 + ulp) 2 * sum (firstn i w) <= power (1 - ulp) (2 * n + 2) * (r * sum w) ->
  power (1 + ulp) (2 * n + 2) * (r * sum w) < power (1 - ulp) 2 * sum (firstn (S i) w) ->
  calc_slot Numba a rand time weather = Ok s.
Proof. exact calc_slot_interval. Qed.
Print Assumptions C59_interval.

(** The rands of a slot are an interval, with no exception for rounding: there is a choice of an
    index by rand that calc_slot follows, and a larger rand never gives an earlier index. *)
Theorem C59_monotone : forall a time weather, al_slots a <> [] -> weights_ok time weather (al_slots a) ->
  (Z.of_nat (length (al_slots a)) <= 2 ^ 20)%Z ->
  exists chosen : spec_float -> nat,
    (forall rand, exists s, calc_slot Numba a rand time weather = Ok s /\ nth_error (al_slots a) (chosen rand) = Some s) /\
    (forall rand rand', float32 rand -> float32 rand' -> 0 <= value rand -> value rand <= value rand' -> value rand' < 1 ->
       (chosen rand <= chosen rand')%nat).
Proof. exact slot_monotone. Qed.
Print Assumptions C59_monotone.
(** If no slot has weight, the last slot is returned, for every rand. *)
Theorem C59_no_weight_actual : forall a time weather rand before s, al_slots a = before ++ [s] ->
  weights_ok time weather (al_slots a) -> sum (map (weight time weather) (al_slots a)) == 0 ->
  calc_slot Numba a rand time weather = Ok s.
Proof. exact calc_slot_zero. Qed.
Print Assumptions C59_no_weight_actual.
(** An area without slots raises. *)
Theorem C59_no_slots_actual : forall a time weather rand, al_slots a = [] ->
  calc_slot Numba a rand time weather = Raise UnboundLocalError.
Proof. intros a time weather rand E. unfold calc_slot. rewrite E. reflexivity. Qed.
Print Assumptions C59_no_slots_actual.

(** Table 0x6a6461bf28b62101 of area 1, as loaded: Ponyta and Bidoof. *)
Definition ponyta_bidoof : areaLA :=
  mkAreaLA 0x6a6461bf28b62101
    [mkSlotLA 77 255 0 4 8 0 100 0 [0x3F800000; 0x3F800000; 0x3F800000; 0]
       [0x3F800000; 0x3F99999A; 0x3F000000; 0; 0; 0x40000000; 0; 0; 0];
     mkSlotLA 399 255 0 4 8 0 100 0 [0x3F800000; 0x3F800000; 0x3F800000; 0]
       [0x3F800000; 0; 0; 0x40A00000; 0x40A00000; 0; 0; 0x40A00000; 0x40A00000]]%N.

(** So a slot without weight is returned, at night and in fog, from a bundled table. *)
Theorem C59_no_weight_refuted : exists a time weather s, weights_ok time weather (al_slots a) /\
  (forall rand, calc_slot Numba a rand time weather = Ok s) /\ weight time weather s == 0.
Proof.
  assert (Hok : weights_ok 3 0 (al_slots ponyta_bidoof)) by (repeat constructor).
  exists ponyta_bidoof, 3%nat, 0%nat. eexists. split; [exact Hok|]. split.
  - intros rand. exact (C59_no_weight_actual ponyta_bidoof 3 0 rand [_] _ eq_refl Hok ltac:(reflexivity)).
  - reflexivity.
Qed.
Print Assumptions C59_no_weight_refuted.

(** Without numba calc_slot raises for every area. *)
Theorem C59_without_numba_refuted : forall a rand time weather,
  calc_slot NumPy a rand time weather = Raise AttributeError.
Proof. reflexivity. Qed.
Print Assumptions C59_without_numba_refuted.

(** In the morning without weather both slots have weight 100: half each, of all binary32 rands that
    are not within 2^-50 of a half. *)
Example C59_case :
  weights_ok 0 0 (al_slots ponyta_bidoof) /\
  map (fun s => Qred (weight 0 0 s)) (al_slots ponyta_bidoof) = [100 # 1; 100 # 1] /\
  (forall rand, float32 rand -> 0 <= value rand -> value rand < (1 # 2) - (1 # 1125899906842624) ->
     rmap la_species (calc_slot Numba ponyta_bidoof rand 0 0) = Ok 77%N) /\
  (forall rand, float32 rand -> (1 # 2) + (1 # 1125899906842624) <= value rand -> value rand < 1 ->
     rmap la_species (calc_slot Numba ponyta_bidoof rand 0 0) = Ok 399%N) /\
  (* 8388607 / 2^24, a half, and 16777215 / 2^24 *)
  map (fun rand => rmap la_species (calc_slot Numba ponyta_bidoof rand 0 0))
    [S754_finite false 16777214 (-25); S754_finite false 8388608 (-24); S754_finite false 16777215 (-24)]
  = [Ok 77; Ok 399; Ok 399]%N.
Proof.
  assert (Hok : weights_ok 0 0 (al_slots ponyta_bidoof)) by (repeat constructor).
  assert (W : sum (map (weight 0 0) (al_slots ponyta_bidoof)) == 200 # 1) by reflexivity.
  assert (W0 : sum (firstn 0 (map (weight 0 0) (al_slots ponyta_bidoof))) == 0) by reflexivity.
  assert (W1 : sum (firstn 1 (map (weight 0 0) (al_slots ponyta_bidoof))) == 100 # 1) by reflexivity.
  assert (W2 : sum (firstn 2 (map (weight 0 0) (al_slots ponyta_bidoof))) == 200 # 1) by reflexivity.
  assert (D2 : 1 - (1 # 2251799813685248) <= power (1 - ulp) 2) by (vm_compute; discriminate).
  assert (D6 : 1 - (1 # 1125899906842624) <= power (1 - ulp) 6) by (vm_compute; discriminate).
  assert (U2 : power (1 + ulp) 2 <= 1 + (1 # 2251799813685248)) by (vm_compute; discriminate).
  assert (U6 : power (1 + ulp) 6 <= 1 + (1 # 1125899906842624)) by (vm_compute; discriminate).
  split; [exact Hok|]. split; [reflexivity|]. split; [|split; [|vm_compute; reflexivity]].
  - intros rand Hf H0 H1.
    rewrite (C59_interval ponyta_bidoof 0 0 rand 0 _ Hok ltac:(discriminate) Hf H0 ltac:(lra) eq_refl).
    + reflexivity.
    + rewrite W, W0. change (2 * _ + 2)%nat with 6%nat. set (p := power _ 2). set (q := power (1 - ulp) 6) in *. nra.
    + rewrite W, W1. change (2 * _ + 2)%nat with 6%nat. set (p := power _ 2) in *. set (q := power _ 6) in *. nra.
  - intros rand Hf H0 H1. destruct (rand_ok rand Hf ltac:(lra) H1) as (_ & _ & _ & Hr).
    rewrite (C59_interval ponyta_bidoof 0 0 rand 1 _ Hok ltac:(discriminate) Hf ltac:(lra) H1 eq_refl).
    + reflexivity.
    + rewrite W, W1. change (2 * _ + 2)%nat with 6%nat. set (p := power _ 2) in *. set (q := power _ 6) in *. nra.
    + rewrite W, W2. change (2 * _ + 2)%nat with 6%nat. set (p := power _ 2) in *. set (q := power _ 6) in *. nra.
Qed.

Open Scope N_scope.

(** C61. Loading a slot, for every content of the files. *)
Theorem C61_slot : forall mults infos t s, is_dict mults -> is_dict infos -> slot_fits mults infos t s ->
  exists x, load_slot mults infos t s = Ok x /\ slot_loaded mults infos t s x.
Proof. exact load_slot_ok. Qed.
Print Assumptions C61_slot.

(** An alpha slot whose species has an index outside this range cannot be loaded. *)
Theorem C61_alpha_index_raises : forall mults infos t s form i index, is_dict infos ->
  small 16 (sl_species s) -> sl_gender s <> None ->
  (exists ivs, defaulted (sl_guaranteed_ivs s) ivs /\ (0 <= ivs < 2 ^ 8)%Z) -> small 32 (sl_base_probability s) ->
  (exists a b, et_min_level t = Some a /\ et_max_level t = Some b /\ (0 <= a <= 235)%Z /\ (0 <= b <= 235)%Z) ->
  defaulted (sl_form s) form -> (0 <= form < 2 ^ 8)%Z ->
  sl_is_alpha s = true -> In (sl_species s, form, i) infos ->
  mi_alpha_level_index i = Some index -> (index < -4 \/ 5 < index)%Z ->
  load_slot mults infos t s = Raise IndexError.
Proof. exact load_slot_index. Qed.
Print Assumptions C61_alpha_index_raises.

(** Nor can a slot of a species and form that the files do not list. *)
Theorem C61_unlisted_raises : forall mults infos t s form, is_dict mults -> is_dict infos ->
  small 16 (sl_species s) -> sl_gender s <> None ->
  (exists ivs, defaulted (sl_guaranteed_ivs s) ivs /\ (0 <= ivs < 2 ^ 8)%Z) -> small 32 (sl_base_probability s) ->
  (exists a b, et_min_level t = Some a /\ et_max_level t = Some b /\ (0 <= a <= 235)%Z /\ (0 <= b <= 235)%Z) ->
  defaulted (sl_form s) form -> (0 <= form < 2 ^ 8)%Z ->
  sl_is_alpha s = true /\ (forall i, ~ In (sl_species s, form, i) infos) \/
  sl_is_alpha s = false /\ sl_eligibility s <> None /\ (forall m, ~ In (sl_species s, form, m) mults) ->
  load_slot mults infos t s = Raise KeyError.
Proof. exact load_slot_missing. Qed.
Print Assumptions C61_unlisted_raises.

(** A number that has no default and is not there cannot be stored. *)
Theorem C61_missing_raises : forall mults infos,
  (forall t s,
     sl_species s = None \/ sl_base_probability s = None \/
     (et_min_level t = None /\ sl_override_min s = Some 0%Z) \/
     (et_max_level t = None /\ sl_override_max s = Some 0%Z) ->
     load_slot mults infos t s = Raise TypeError) /\
  forall t, et_id t = None -> load_area mults infos t = Raise TypeError.
Proof. exact load_missing_number. Qed.
Print Assumptions C61_missing_raises.

(** A whole file: the area under each id. *)
Theorem C61_file : forall mults infos file o tables, is_dict mults -> is_dict infos ->
  root_at file o -> vector_is etable_is o 0 tables -> Forall (table_fits mults infos) tables ->
  exists d, load_encounter_tables_la mults infos file = Ok d /\ is_dict d /\
    forall id, area_under mults infos tables d id.
Proof. exact load_ok. Qed.
Print Assumptions C61_file.

(** Two tables of area 1 and the entries of their species; the second has an alpha slot. *)
Definition keep_list {A B} (r : res (list A * list B)) : list A := match r with Ok (l, _) => l | Raise _ => [] end.
Definition keep_lookup {A B} (r : res (list A * list B)) : list B := match r with Ok (_, d) => d | Raise _ => [] end.
Definition case_infos : miscs := Eval vm_compute in keep_lookup (misc_table misc_case_bytes).
Definition case_mults : multipliers := Eval vm_compute in keep_lookup (multiplier_table mult_case_bytes).
Definition case_tables : list etable := Eval vm_compute in keep_list (etable_table enc_case_bytes).
Ltac case_scalars := repeat (constructor; [first [exact I | reflexivity]|]); constructor.
Ltac case_slot :=
  split; [case_scalars|]; eexists; eexists;
  split; [eexists; split; [reflexivity|]; split; [case_scalars|reflexivity]|];
  split; [eexists; split; [reflexivity|]; split; [case_scalars|]|reflexivity];
  cbn; split; intros H; try (left; reflexivity); try discriminate; try (destruct H; discriminate); reflexivity.
Ltac case_table :=
  split; [case_scalars|]; split; [case_scalars|]; eexists; split; [|reflexivity];
  repeat (constructor; [case_slot|]); constructor.
Ltac case_range := repeat split; vm_compute; first [reflexivity | discriminate].
Ltac case_small := eexists; split; [reflexivity|]; case_range.
Ltac case_in := first [left; reflexivity | right; case_in].
Ltac case_default := first [left; reflexivity | right; split; reflexivity].
Ltac case_fits :=
  split; [case_small|]; split; [discriminate|];
  split; [eexists; split; [case_default|]; case_range|]; split; [case_small|];
  split; [eexists; eexists; split; [reflexivity|]; split; [reflexivity|]; case_range|];
  eexists; split; [case_default|]; split; [case_range|];
  split; [first [discriminate | intros _; eexists; eexists; split; [case_in|]; split; [reflexivity|]; case_range]|];
  eexists; eexists; split; [reflexivity|]; split; [case_in|]; split; [reflexivity|]; split; [reflexivity|];
  repeat (constructor; [reflexivity|]); constructor.
Example C61_case :
  is_dict case_mults /\ is_dict case_infos /\
  root_at enc_case_bytes enc_case_root /\ vector_is etable_is enc_case_root 0 case_tables /\
  Forall (table_fits case_mults case_infos) case_tables /\
  exists d, load_encounter_tables_la case_mults case_infos enc_case_bytes = Ok d /\
    dict_get N.eqb d 0x6a6461bf28b62101 = Ok ponyta_bidoof /\
    (exists a, dict_get N.eqb d 0xbca39103c9ca6d97 = Ok a /\
       map (fun s => (la_species s, la_min_level s, la_max_level s, la_is_alpha s)) (al_slots a)
       = [(396, 2, 4, 0); (396, 17, 19, 1)]).
Proof.
  split; [repeat constructor; cbn; intuition discriminate|]. split; [repeat constructor; cbn; intuition discriminate|].
  split; [apply (check_root_ok 6); vm_compute; reflexivity|]. split; [|split].
  - assert (E : Forall2 etable_is (match field_of enc_case_root 0 with Some (FVec l) => l | _ => [] end) case_tables);
      [|exact E].
    repeat (constructor; [case_table|]). constructor.
  - repeat (constructor; [split; [case_small|repeat (constructor; [case_fits|]); constructor]|]). constructor.
  - eexists. split; [vm_compute; reflexivity|]. split; [reflexivity|].
    eexists. split; vm_compute; reflexivity.
Qed.
(** The alpha slot of this file, with another index for its species. *)
Example C61_index_case : exists t s i, In t case_tables /\ In s (et_slots t) /\
  let infos := [((sl_species s, 0%Z), i)] in
  is_dict infos /\ small 16 (sl_species s) /\ sl_gender s <> None /\
  (exists ivs, defaulted (sl_guaranteed_ivs s) ivs /\ (0 <= ivs < 2 ^ 8)%Z) /\ small 32 (sl_base_probability s) /\
  (exists a b, et_min_level t = Some a /\ et_max_level t = Some b /\ (0 <= a <= 235)%Z /\ (0 <= b <= 235)%Z) /\
  defaulted (sl_form s) 0%Z /\ sl_is_alpha s = true /\ mi_alpha_level_index i = Some 6%Z.
Proof.
  do 2 eexists. exists (mkMisc (Some 396%Z) (Some 0%Z) (Some 6%Z)).
  split; [right; left; reflexivity|]. split; [right; left; reflexivity|]. cbv zeta.
  split; [repeat constructor; cbn; tauto|]. split; [case_small|]. split; [discriminate|].
  split; [eexists; split; [case_default|]; case_range|]. split; [case_small|].
  split; [eexists; eexists; split; [reflexivity|]; split; [reflexivity|]; case_range|].
  split; [case_default|]. split; reflexivity.
Qed.
(** The slots of this file, with no species listed at all. *)
Example C61_unlisted_case : exists t s s', In t case_tables /\ In s (et_slots t) /\ In s' (et_slots t) /\
  sl_is_alpha s = true /\ sl_is_alpha s' = false /\ sl_eligibility s' <> None /\
  small 16 (sl_species s) /\ sl_gender s <> None /\
  (exists ivs, defaulted (sl_guaranteed_ivs s) ivs /\ (0 <= ivs < 2 ^ 8)%Z) /\ small 32 (sl_base_probability s) /\
  (exists a b, et_min_level t = Some a /\ et_max_level t = Some b /\ (0 <= a <= 235)%Z /\ (0 <= b <= 235)%Z) /\
  defaulted (sl_form s) 0%Z /\ load_slot [] [] t s = Raise KeyError /\ load_slot [] [] t s' = Raise KeyError.
Proof.
  do 3 eexists.
  split; [right; left; reflexivity|]. split; [right; left; reflexivity|]. split; [left; reflexivity|].
  split; [reflexivity|]. split; [reflexivity|]. split; [discriminate|].
  split; [case_small|]. split; [discriminate|].
  split; [eexists; split; [case_default|]; case_range|]. split; [case_small|].
  split; [eexists; eexists; split; [reflexivity|]; split; [reflexivity|]; case_range|].
  split; [case_default|]. split; reflexivity.
Qed.

(** A table without contents, and a slot of a listed species in it. *)
Example C61_missing_case : exists t s, In t case_tables /\ In s (et_slots t) /\ sl_override_min s = Some 0%Z /\
  load_slot case_mults case_infos (mkEtable None None (et_max_level t) []) s = Raise TypeError /\
  load_area case_mults case_infos (mkEtable None None None []) = Raise TypeError.
Proof.
  do 2 eexists. split; [left; reflexivity|]. split; [left; reflexivity|].
  split; [reflexivity|]. split; reflexivity.
Qed.
