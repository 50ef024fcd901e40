(** Facts about the bundled data of Legends Arceus, by evaluation. *)
From Coq Require Import NArith ZArith QArith Qpower Arith List Bool Lia Lqa SpecFloat.
From Verif Require Import Base.Word Model.Flatbuf Model.FbsLA Model.EncounterLA Model.Trie Model.BundledLA
  Model.LaBytes1 Model.LaBytes2 Model.LaBytes3 Model.LaBytes4 Model.LaBytes5
  Spec.FloatSpec Spec.FbsLASpec Spec.EncounterLASpec Spec.BundledLASpec Proofs.FbsLAProofs Proofs.EncounterLAProofs Proofs.CalcSlotProofs
  Proofs.FbsFast Proofs.LoadFast Proofs.LaLitCommon Proofs.LaLit1 Proofs.LaLit2 Proofs.LaLit3 Proofs.LaLit4 Proofs.LaLit5.
Import ListNotations.
Open Scope N_scope.

Definition tables_of (k : N) : list etable :=
  match k with 1 => tables_1 | 2 => tables_2 | 3 => tables_3 | 4 => tables_4 | 5 => tables_5 | _ => [] end.
Definition areas_of (k : N) : list (N * areaLA) :=
  match k with 1 => areas_1 | 2 => areas_2 | 3 => areas_3 | 4 => areas_4 | 5 => areas_5 | _ => [] end.

(** ** Loading *)
Lemma one_file t size tabs ars :
  froot (trie_get t size) (fetable (trie_get t size)) = Ok tabs -> fload_areas mults infos tabs [] = Ok ars ->
  etable_table (file_bytes t size) = Ok (tabs, dict_by opt_eqb et_id tabs) /\
  load_encounter_tables_la mults infos (file_bytes t size) = Ok ars.
Proof.
  intros H1 H2. unfold load_encounter_tables_la. rewrite (etable_table_ok _ _ (trie_get_ok t size)), H1.
  cbn [rmap rbind]. rewrite fload_areas_ok, H2. split; exact eq_refl.
Qed.
Lemma map_cases (P : N -> Prop) : P 1 -> P 2 -> P 3 -> P 4 -> P 5 -> forall k, In k map_areas -> P k.
Proof.
  intros H1 H2 H3 H4 H5 k H. cbn [map_areas In] in H.
  destruct H as [<-|[<-|[<-|[<-|[<-|[]]]]]]; assumption.
Qed.
Lemma files k : In k map_areas -> exists file, encounter_file k = Ok file /\
  etable_table file = Ok (tables_of k, dict_by opt_eqb et_id (tables_of k)) /\
  load_encounter_tables_la mults infos file = Ok (areas_of k).
Proof.
  revert k. apply map_cases.
  - exists (file_bytes area_1_trie area_1_size). split; [exact eq_refl|]. exact (one_file _ _ _ _ tables_1_ok areas_1_ok).
  - exists (file_bytes area_2_trie area_2_size). split; [exact eq_refl|]. exact (one_file _ _ _ _ tables_2_ok areas_2_ok).
  - exists (file_bytes area_3_trie area_3_size). split; [exact eq_refl|]. exact (one_file _ _ _ _ tables_3_ok areas_3_ok).
  - exists (file_bytes area_4_trie area_4_size). split; [exact eq_refl|]. exact (one_file _ _ _ _ tables_4_ok areas_4_ok).
  - exists (file_bytes area_5_trie area_5_size). split; [exact eq_refl|]. exact (one_file _ _ _ _ tables_5_ok areas_5_ok).
Qed.
Lemma information k : In k map_areas -> encounter_information_la k = Ok (areas_of k).
Proof.
  intros H. destruct (files k H) as (file & E & _ & L). unfold encounter_information_la.
  rewrite mults_ok. cbn [rbind]. rewrite infos_ok. cbn [rbind]. rewrite E. cbn [rbind]. exact L.
Qed.

(** ** The tables fit *)
Definition smallb (bound : Z) (x : option Z) : bool := match x with Some z => (0 <=? z)%Z && (z <? bound)%Z | None => false end.
Lemma smallb_ok bits bound x : (2 ^ bits = bound)%Z -> smallb bound x = true -> small bits x.
Proof.
  intros <- H. destruct x as [z|]; [|discriminate]. cbn in H. apply andb_prop in H as [H1 H2].
  exists z. split; [reflexivity|]. lia.
Qed.
Lemma mults_is_dict : is_dict mults.
Proof. rewrite <- mults_dict. exact (by_is_dict _ _ _ sf_eq_ok). Qed.
Lemma infos_is_dict : is_dict infos.
Proof. rewrite <- infos_dict. exact (by_is_dict _ _ _ sf_eq_ok). Qed.
Definition slot_fitsb (t : etable) (s : slot8a) : bool :=
  let key := (sl_species s, or_zero (sl_form s)) in
  smallb 65536 (sl_species s) && match sl_gender s with Some _ => true | None => false end &&
  smallb 256 (Some (or_zero (sl_form s))) && smallb 256 (Some (or_zero (sl_guaranteed_ivs s))) &&
  smallb 4294967296 (sl_base_probability s) && smallb 236 (et_min_level t) && smallb 236 (et_max_level t) &&
  (if sl_is_alpha s then
     match dict_get sf_eqb infos key with
     | Ok i => match mi_alpha_level_index i with Some x => (1 <=? x)%Z && (x <=? 5)%Z | None => false end
     | Raise _ => false
     end
   else true) &&
  match sl_eligibility s, dict_get sf_eqb mults key with
  | Some e, Ok m =>
      (length (el_time e) =? length (mu_time m))%nat && (length (el_weather e) =? length (mu_weather m))%nat &&
      forallb (fun b => b <? 4294967296) (el_time e) && forallb (fun b => b <? 4294967296) (el_weather e) &&
      forallb (fun b => b <? 4294967296) (mu_time m) && forallb (fun b => b <? 4294967296) (mu_weather m)
  | _, _ => false
  end.
Lemma bits_ok l : forallb (fun b => b <? 4294967296) l = true -> Forall (fun b => b < 2^32) l.
Proof. intros H. rewrite forallb_forall in H. apply Forall_forall. intros x Hx. apply N.ltb_lt. exact (H x Hx). Qed.
Lemma slot_fitsb_ok t s : slot_fitsb t s = true -> slot_fits mults infos t s.
Proof.
  unfold slot_fitsb. cbv zeta. intros H. apply andb_prop in H as [H H9]. apply andb_prop in H as [H H8].
  apply andb_prop in H as [H H7]. apply andb_prop in H as [H H6]. apply andb_prop in H as [H H5].
  apply andb_prop in H as [H H4]. apply andb_prop in H as [H H3]. apply andb_prop in H as [H1 H2].
  unfold slot_fits. split; [exact (smallb_ok 16 _ _ eq_refl H1)|]. split; [destruct (sl_gender s); discriminate|].
  destruct (smallb_ok 8 _ _ eq_refl H4) as (ivs & E4 & B4). injection E4 as E4. apply defaulted_ok in E4.
  split; [exists ivs; now split|].
  split; [exact (smallb_ok 32 _ _ eq_refl H5)|]. split.
  - destruct (et_min_level t) as [a|]; [|discriminate]. destruct (et_max_level t) as [b|]; [|discriminate].
    exists a, b. cbn in H6, H7. apply andb_prop in H6 as [? ?], H7 as [? ?]. repeat split; lia.
  - destruct (smallb_ok 8 _ _ eq_refl H3) as (form & E3 & B3). injection E3 as E3. exists form.
    split; [now apply defaulted_ok|]. split; [exact B3|]. rewrite E3 in *. split.
    { intros Ha. rewrite Ha in H8. destruct (dict_get sf_eqb infos _) as [i|] eqn:Ei; [|discriminate].
      apply (get_in sf_eqb sf_eq_ok _ _ _ infos_is_dict) in Ei. exists i. destruct (mi_alpha_level_index i) as [x|]; [|discriminate]. exists x. apply andb_prop in H8 as [? ?].
    repeat split; try lia; exact Ei. }
    destruct (sl_eligibility s) as [e|]; [|discriminate]. destruct (dict_get sf_eqb mults _) as [m|] eqn:Em; [|discriminate].
    apply (get_in sf_eqb sf_eq_ok _ _ _ mults_is_dict) in Em. exists e, m. apply andb_prop in H9 as [H9 C4]. apply andb_prop in H9 as [H9 C3]. apply andb_prop in H9 as [H9 C2].
    apply andb_prop in H9 as [H9 C1]. apply andb_prop in H9 as [L1 L2]. apply Nat.eqb_eq in L1, L2.
    split; [reflexivity|]. split; [exact Em|]. split; [exact L1|]. split; [exact L2|].
    rewrite !Forall_app. repeat split; now apply bits_ok.
Qed.
Definition table_fitsb (t : etable) : bool :=
  smallb 18446744073709551616 (et_id t) && forallb (slot_fitsb t) (et_slots t).
Lemma tables_fit k : In k map_areas -> Forall (table_fits mults infos) (tables_of k).
Proof.
  assert (G : forall l, forallb table_fitsb l = true -> Forall (table_fits mults infos) l).
  { intros l H. rewrite forallb_forall in H. apply Forall_forall. intros t Ht. apply H in Ht.
    unfold table_fitsb in Ht. apply andb_prop in Ht as [A B]. split; [exact (smallb_ok 64 _ _ eq_refl A)|].
    rewrite forallb_forall in B. apply Forall_forall. intros s Hs. apply slot_fitsb_ok. exact (B s Hs). }
  revert k. apply map_cases; apply G; vm_cast_no_check (eq_refl true).
Qed.
Lemma areas_under k : In k map_areas -> is_dict (areas_of k) /\ forall id, area_under mults infos (tables_of k) (areas_of k) id.
Proof.
  intros H. destruct (files k H) as (file & _ & E & L). unfold load_encounter_tables_la in L. rewrite E in L.
  cbn [rbind] in L. destruct (load_areas_ok mults infos mults_is_dict infos_is_dict (tables_of k) (tables_fit k H)) as (d & E' & Hd).
  rewrite E' in L. assert (X : d = areas_of k) by (now injection L). rewrite <- X. exact Hd.
Qed.

(** ** Weights *)
Definition member (x : N) (l : list N) : bool := existsb (N.eqb x) l.
Definition nonzero (x : N) : bool := match x with N0 => false | _ => true end.
Definition has_weight (time weather : nat) (l : list slotLA) : bool :=
  existsb (fun s => nonzero (la_base_probability s) && nonzero (nth time (la_time s) 0) &&
                    nonzero (nth weather (la_weather s) 0)) l.
Definition finite_bits (b : N) : bool := b <? 0x7F800000.
Definition slot_finite (s : slotLA) : bool :=
  (la_base_probability s <? 4294967296) && forallb finite_bits (la_time s) && forallb finite_bits (la_weather s).
Definition times : list nat := [0; 1; 2; 3]%nat.
Definition weathers : list nat := [0; 1; 2; 3; 4; 5; 6; 7; 8]%nat.
Definition all_weighted (l : list slotLA) : bool :=
  forallb (fun t => forallb (fun w => has_weight t w l) weathers) times.
Definition level_ok (s : slotLA) : bool :=
  (1 <=? la_min_level s) && (la_min_level s <=? la_max_level s) && (la_max_level s <=? 100).
Definition area_check (k : N) (x : N * areaLA) : bool :=
  (fst x =? al_table_id (snd x)) && forallb slot_finite (al_slots (snd x)) &&
  (length (al_slots (snd x)) <=? 100)%nat && negb (length (al_slots (snd x)) =? 0)%nat &&
  eqb (all_weighted (al_slots (snd x))) (negb (member (fst x) (no_weight k))) &&
  eqb (forallb level_ok (al_slots (snd x))) (negb (member (fst x) (bad_levels k))).
Lemma areas_checked k : In k map_areas -> forallb (area_check k) (areas_of k) = true /\
  forallb (fun id => existsb (fun x => fst x =? id) (areas_of k)) (no_weight k ++ bad_levels k) = true.
Proof. revert k. apply map_cases; split; vm_cast_no_check (eq_refl true). Qed.

Lemma value_pos b : 0 < b < 0x7F800000 -> (0 < bits_value b)%Q.
Proof.
  intros [H0 H]. unfold bits_value. rewrite (N.mod_small b (2 ^ 31)) by (change (2 ^ 31) with 2147483648; lia).
  change (2 ^ 23) with 8388608.
  assert (D : b = 8388608 * (b / 8388608) + b mod 8388608) by (apply N.div_mod'; discriminate).
  set (q := b / 8388608) in *. set (m := b mod 8388608) in *. clearbody q m.
  destruct (N.eqb_spec q 0) as [E|E]; (apply Qmult_lt_0_compat; [|apply Qpower_0_lt; reflexivity]);
    change 0%Q with (inject_Z 0); rewrite <- Zlt_Qlt; lia.
Qed.
Lemma finite_nth l k : forallb finite_bits l = true -> nth k l 0 < 0x7F800000.
Proof.
  intros H. destruct (Nat.lt_ge_cases k (length l)) as [Hk|Hk].
  - rewrite forallb_forall in H. apply N.ltb_lt. apply H. now apply nth_In.
  - rewrite nth_overflow by exact Hk. reflexivity.
Qed.
Lemma finite_weights l time weather : forallb slot_finite l = true -> weights_ok time weather l.
Proof.
  intros H. rewrite forallb_forall in H. apply Forall_forall. intros s Hs. apply H in Hs. unfold slot_finite in Hs.
  apply andb_prop in Hs as [Hs B]. apply andb_prop in Hs as [C A]. apply N.ltb_lt in C.
  split; [exact C|]. split; left; now apply finite_nth.
Qed.
Lemma weight_pos time weather s : slot_finite s = true -> nonzero (la_base_probability s) = true ->
  nonzero (nth time (la_time s) 0) = true -> nonzero (nth weather (la_weather s) 0) = true ->
  (0 < weight time weather s)%Q.
Proof.
  intros Hs H1 H2 H3. unfold slot_finite in Hs. apply andb_prop in Hs as [Hs B].
  apply andb_prop in Hs as [_ A]. pose proof (finite_nth _ time A) as Ft. pose proof (finite_nth _ weather B) as Fw.
  assert (P1 : (0 < inject_Z (Z.of_N (la_base_probability s)))%Q).
  { destruct (la_base_probability s); [discriminate|reflexivity]. }
  assert (P2 : (0 < bits_value (nth time (la_time s) 0%N))%Q).
  { apply value_pos. split; [destruct (nth time (la_time s) 0); [discriminate|reflexivity]|exact Ft]. }
  assert (P3 : (0 < bits_value (nth weather (la_weather s) 0%N))%Q).
  { apply value_pos. split; [destruct (nth weather (la_weather s) 0); [discriminate|reflexivity]|exact Fw]. }
  unfold weight. apply Qmult_lt_0_compat; [now apply Qmult_lt_0_compat|exact P3].
Qed.
Lemma weight_zero time weather s :
  nonzero (la_base_probability s) && nonzero (nth time (la_time s) 0) && nonzero (nth weather (la_weather s) 0) = false ->
  (weight time weather s == 0)%Q.
Proof.
  intros H. unfold weight. destruct (la_base_probability s); [ring|]. 
  destruct (nth time (la_time s) 0); [setoid_replace (bits_value 0) with 0%Q by reflexivity; ring|].
  destruct (nth weather (la_weather s) 0); [setoid_replace (bits_value 0) with 0%Q by reflexivity; ring|discriminate].
Qed.
Lemma has_weight_pos time weather l : forallb slot_finite l = true -> has_weight time weather l = true ->
  (0 < sum (map (weight time weather) l))%Q.
Proof.
  intros F H. pose proof (weights_nonneg time weather l (finite_weights l time weather F)) as P.
  induction l as [|s l IH]; [discriminate|]. cbn [has_weight existsb] in H. cbn [forallb] in F.
  apply andb_prop in F as [F1 F2]. cbn [map sum]. inversion P as [|? ? P1 P2]; subst.
  apply orb_prop in H as [H|H].
  - apply andb_prop in H as [H H3]. apply andb_prop in H as [H1 H2].
    pose proof (weight_pos time weather s F1 H1 H2 H3) as Q. pose proof (sum_nonneg _ P2) as R. lra.
  - pose proof (IH F2 H P2). lra.
Qed.
Lemma has_weight_none time weather l : has_weight time weather l = false ->
  (sum (map (weight time weather) l) == 0)%Q /\ Forall (fun s => weight time weather s == 0)%Q l.
Proof.
  induction l as [|s l IH]; intros H; [split; [reflexivity|constructor]|]. cbn [has_weight existsb] in H.
  apply orb_false_elim in H as [H1 H2]. destruct (IH H2) as [A B]. pose proof (weight_zero _ _ _ H1) as Z.
  split; [|now constructor]. cbn [map sum]. rewrite Z, A. reflexivity.
Qed.
Lemma in_times t : (t < 4)%nat -> In t times.
Proof. intros H. cbn. lia. Qed.
Lemma in_weathers t : (t < 9)%nat -> In t weathers.
Proof. intros H. cbn. lia. Qed.
Lemma member_ok x l : member x l = true <-> In x l.
Proof.
  unfold member. rewrite existsb_exists. split.
  - intros (y & Hy & E). apply N.eqb_eq in E. now subst.
  - intros H. exists x. split; [exact H|apply N.eqb_refl].
Qed.

Lemma area_facts k id a : In k map_areas -> In (id, a) (areas_of k) ->
  id = al_table_id a /\ forallb slot_finite (al_slots a) = true /\ (length (al_slots a) <= 100)%nat /\ al_slots a <> [] /\
  (all_weighted (al_slots a) = true <-> ~ In id (no_weight k)) /\
  (forallb level_ok (al_slots a) = true <-> ~ In id (bad_levels k)).
Proof.
  intros Hk Ha. destruct (areas_checked k Hk) as [H _]. rewrite forallb_forall in H. apply H in Ha.
  unfold area_check in Ha. cbn [fst snd] in Ha.
  apply andb_prop in Ha as [Ha H6]. apply andb_prop in Ha as [Ha H5]. apply andb_prop in Ha as [Ha H4].
  apply andb_prop in Ha as [Ha H3]. apply andb_prop in Ha as [H1 H2].
  apply N.eqb_eq in H1. apply Nat.leb_le in H3. apply eqb_prop in H5, H6.
  split; [exact H1|]. split; [exact H2|]. split; [exact H3|]. split; [|split].
  - intros E. rewrite E in H4. discriminate.
  - rewrite H5, <- member_ok. destruct (member id (no_weight k)); cbn; intuition congruence.
  - rewrite H6, <- member_ok. destruct (member id (bad_levels k)); cbn; intuition congruence.
Qed.

Lemma bundled_choice k d id a : In k map_areas -> encounter_information_la k = Ok d -> In (id, a) d ->
  ~ In id (no_weight k) -> forall time weather rand, (time < 4)%nat -> (weather < 9)%nat ->
  float32 rand -> (0 <= value rand)%Q -> (value rand < 1)%Q ->
  exists s, calc_slot Numba a rand time weather = Ok s /\ In s (al_slots a) /\ (0 < weight time weather s)%Q.
Proof.
  intros Hk E Ha Hn time weather rand Ht Hw Rf R0 R1. rewrite (information k Hk) in E.
  assert (X : areas_of k = d) by (now injection E). rewrite <- X in Ha.
  destruct (area_facts k id a Hk Ha) as (_ & F & L & _ & W & _). apply W in Hn.
  unfold all_weighted in Hn. rewrite forallb_forall in Hn. specialize (Hn time (in_times time Ht)).
  rewrite forallb_forall in Hn. specialize (Hn weather (in_weathers weather Hw)).
  destruct (calc_slot_bounds time weather a rand (finite_weights _ time weather F)) as (i & s & C & N & P & _).
  - lia.
  - now apply has_weight_pos.
  - exact Rf.
  - exact R0.
  - exact R1.
  - exists s. split; [exact C|]. split; [exact (nth_error_In _ _ N)|exact P].
Qed.
Lemma forallb_false {A} (f : A -> bool) l : forallb f l = false -> exists x, In x l /\ f x = false.
Proof.
  induction l as [|x l IH]; [discriminate|]. cbn. destruct (f x) eqn:E.
  - intros H. destruct (IH H) as (y & Hy & F). exists y. auto.
  - intros _. exists x. auto.
Qed.
Lemma listed k id : In k map_areas -> In id (no_weight k ++ bad_levels k) -> exists a, In (id, a) (areas_of k).
Proof.
  intros Hk H. destruct (areas_checked k Hk) as [_ G]. rewrite forallb_forall in G. apply G in H.
  apply existsb_exists in H. destruct H as ([i a] & H & E). cbn in E. apply N.eqb_eq in E. subst i. now exists a.
Qed.
Lemma bundled_no_weight k id : In k map_areas -> In id (no_weight k) ->
  exists d a time weather s, encounter_information_la k = Ok d /\ In (id, a) d /\ (time < 4)%nat /\ (weather < 9)%nat /\
    (weight time weather s == 0)%Q /\ forall rand, calc_slot Numba a rand time weather = Ok s.
Proof.
  intros Hk H. destruct (listed k id Hk (in_or_app _ _ _ (or_introl H))) as (a & Ha).
  destruct (area_facts k id a Hk Ha) as (_ & F & _ & Ne & W & _).
  assert (Z : all_weighted (al_slots a) = false).
  { destruct (all_weighted (al_slots a)); [|reflexivity]. exfalso. now apply (proj1 W eq_refl). }
  unfold all_weighted in Z. apply forallb_false in Z. destruct Z as (time & Ht & Z). apply forallb_false in Z.
  destruct Z as (weather & Hw & Z). destruct (has_weight_none _ _ _ Z) as [S0 W0].
  destruct (exists_last Ne) as (before & s & Es).
  exists (areas_of k), a, time, weather, s. split; [exact (information k Hk)|]. split; [exact Ha|].
  split; [cbn in Ht; lia|]. split; [cbn in Hw; lia|]. split.
  - rewrite Forall_forall in W0. apply W0. rewrite Es. apply in_or_app. right. now left.
  - intros rand. exact (calc_slot_zero a time weather rand before s Es (finite_weights _ time weather F) S0).
Qed.
Lemma bundled_levels k d id a s : In k map_areas -> encounter_information_la k = Ok d -> In (id, a) d -> ~ In id (bad_levels k) ->
  In s (al_slots a) -> 1 <= la_min_level s /\ la_min_level s <= la_max_level s /\ la_max_level s <= 100.
Proof.
  intros Hk E Ha Hn Hs. rewrite (information k Hk) in E. assert (X : areas_of k = d) by (now injection E).
  rewrite <- X in Ha. destruct (area_facts k id a Hk Ha) as (_ & _ & _ & _ & _ & W). apply W in Hn.
  rewrite forallb_forall in Hn. apply Hn in Hs. unfold level_ok in Hs. apply andb_prop in Hs as [Hs A].
  apply andb_prop in Hs as [B C]. apply N.leb_le in A, B, C. auto.
Qed.
Lemma bundled_bad_levels k id : In k map_areas -> In id (bad_levels k) ->
  exists d a, encounter_information_la k = Ok d /\ In (id, a) d /\
    exists s, In s (al_slots a) /\ ~ (1 <= la_min_level s /\ la_min_level s <= la_max_level s /\ la_max_level s <= 100).
Proof.
  intros Hk H. destruct (listed k id Hk (in_or_app _ _ _ (or_intror H))) as (a & Ha).
  destruct (area_facts k id a Hk Ha) as (_ & _ & _ & _ & _ & W).
  exists (areas_of k), a. split; [exact (information k Hk)|]. split; [exact Ha|].
  assert (Z : forallb level_ok (al_slots a) = false).
  { destruct (forallb level_ok (al_slots a)); [|reflexivity]. exfalso. now apply (proj1 W eq_refl). }
  apply forallb_false in Z. destruct Z as (s & Hs & Z). exists s. split; [exact Hs|]. intros (A & B & C).
  apply N.leb_le in A, B, C. unfold level_ok in Z. rewrite A, B, C in Z. discriminate.
Qed.
