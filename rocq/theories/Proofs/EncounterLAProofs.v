(** Loading Legends Arceus slots. *)
From Coq Require Import NArith ZArith QArith List Bool Lia SpecFloat.
From Verif Require Import Base.Word Model.Flatbuf Model.FbsLA Model.EncounterLA Spec.FlatbufSpec
  Spec.FbsLASpec Spec.EncounterLASpec Proofs.FlatbufProofs Proofs.FbsLAProofs.
Import ListNotations.
Open Scope N_scope.

Lemma is_negative_below b : b < 2^32 -> is_negative b = true <-> below_zero b.
Proof.
  intros Hb. change (2^32) with 4294967296 in Hb. unfold is_negative, below_zero, f32_bits.
  assert (E : b = b / 8388608 * 8388608 + b mod 8388608) by (pose proof (N.div_mod b 8388608); lia).
  assert (M : b mod 8388608 < 8388608) by now apply N.mod_lt.
  set (q := b / 8388608) in *. set (m := b mod 8388608) in *.
  assert (E2 : q = q / 256 * 256 + q mod 256) by (pose proof (N.div_mod q 256); lia).
  assert (M2 : q mod 256 < 256) by now apply N.mod_lt.
  set (s := q / 256) in *. set (e := q mod 256) in *.
  destruct (N.leb_spec 2147483648 b) as [Hs|Hs];
  destruct (N.eqb_spec e 255) as [He|He].
  - destruct (N.eqb_spec m 0) as [Hm|Hm]; cbn; split; intros H; try discriminate; try reflexivity; lia.
  - destruct (N.eqb_spec e 0) as [H0|H0].
    + destruct m as [|p] eqn:Em; cbn; split; intros H; try discriminate; try reflexivity; lia.
    + destruct (m + 8388608) as [|p] eqn:Em; cbn; split; intros H; try discriminate; try reflexivity; lia.
  - destruct (N.eqb_spec m 0) as [Hm|Hm]; cbn; split; intros H; try discriminate; lia.
  - destruct (N.eqb_spec e 0) as [H0|H0].
    + destruct m as [|p] eqn:Em; cbn; split; intros H; try discriminate; lia.
    + destruct (m + 8388608) as [|p] eqn:Em; cbn; split; intros H; try discriminate; lia.
Qed.

Lemma where_nth a : forall b i x y, nth_error a i = Some x -> nth_error b i = Some y ->
  nth_error (where_negative a b) i = Some (if is_negative x then y else x).
Proof.
  induction a as [|x0 a IH]; intros b i x y Ha Hb; [destruct i; discriminate|].
  destruct b as [|y0 b]; [destruct i; discriminate|]. destruct i as [|i]; cbn in *.
  - injection Ha as ->. injection Hb as ->. reflexivity.
  - now apply IH.
Qed.
Lemma where_length a : forall b, length a = length b -> length (where_negative a b) = length a.
Proof. intros b H. unfold where_negative. rewrite map_length, combine_length. lia. Qed.

Lemma bake_ok slot species : length slot = length species -> Forall (fun b => b < 2^32) slot ->
  Forall (fun b => b < 2^32) species -> baked slot species (bake slot species).
Proof.
  intros L Fs Fp. unfold bake. set (t := where_negative slot species).
  assert (Lt : length t = length slot) by now apply where_length.
  split; [rewrite where_length; [exact Lt|now rewrite map_length]|].
  intros i a b x Ha Hb Hx.
  assert (Ht : nth_error t i = Some (if is_negative a then b else a)) by now apply where_nth.
  assert (Ho : nth_error (map (fun _ => one_f32) t) i = Some one_f32) by (rewrite nth_error_map, Ht; reflexivity).
  rewrite (where_nth _ _ _ _ _ Ht Ho) in Hx. injection Hx as <-.
  assert (Ba : a < 2^32) by (rewrite Forall_forall in Fs; apply Fs; now apply nth_error_In in Ha).
  assert (Bb : b < 2^32) by (rewrite Forall_forall in Fp; apply Fp; now apply nth_error_In in Hb).
  pose proof (is_negative_below a Ba) as Na. pose proof (is_negative_below b Bb) as Nb.
  unfold multiplier_baked. destruct (is_negative a) eqn:Ea.
  - destruct (is_negative b) eqn:Eb.
    + right. right. split; [now apply Na|]. split; [now apply Nb|reflexivity].
    + right. left. split; [now apply Na|]. split; [|reflexivity]. intros H. apply Nb in H. discriminate.
  - rewrite Ea. left. split; [|reflexivity]. intros H. apply Na in H. discriminate.
Qed.

Lemma store_small bits x : small bits x -> exists n, store bits x = Ok n /\ x = Some (Z.of_N n).
Proof.
  intros (z & -> & Hz). exists (Z.to_N z). cbn. rewrite Z.mod_small by exact Hz.
  split; [reflexivity|]. rewrite Z2N.id by lia. reflexivity.
Qed.

Lemma choose_ok o t a : t = Some a -> (0 <= a <= 235)%Z ->
  exists n, store 8 (choose_level o t) = Ok n /\ base_level o t (Z.of_N n) /\ (n <= 235).
Proof.
  intros -> Ha.
  assert (G : forall z, (0 <= z <= 235)%Z -> store 8 (Some z) = Ok (Z.to_N z)).
  { intros z Hz. cbn. rewrite Z.mod_small by lia. reflexivity. }
  unfold choose_level. destruct o as [z|].
  - destruct ((0 <? z)%Z && (z <=? 100)%Z) eqn:E.
    + apply andb_prop in E as [E1 E2]. apply Z.ltb_lt in E1. apply Z.leb_le in E2.
      rewrite G by lia. exists (Z.to_N z). split; [reflexivity|]. split; [|lia].
      left. exists z. split; [reflexivity|]. lia.
    + rewrite G by lia. exists (Z.to_N a). split; [reflexivity|]. split; [|lia]. right. split; [|rewrite Z2N.id by lia; reflexivity].
      intros o Ho. injection Ho as <-. apply andb_false_iff in E as [E|E]; [apply Z.ltb_ge in E|apply Z.leb_gt in E]; lia.
  - rewrite G by lia. exists (Z.to_N a). split; [reflexivity|]. split; [|lia]. right. split; [discriminate|rewrite Z2N.id by lia; reflexivity].
Qed.

Lemma boost_ok index : (-4 <= index <= 5)%Z ->
  exists b, tuple_get ALPHA_LEVEL_BOOSTS_LA (index - 1) = Ok b /\ alpha_boost index b /\ (0 <= b <= 20)%Z.
Proof.
  intros H. assert (C : (index = 1 \/ index = 2 \/ index = 3 \/ index = 4 \/ index = 5 \/
    index = -4 \/ index = -3 \/ index = -2 \/ index = -1 \/ index = 0)%Z) by lia.
  destruct C as [->|[->|[->|[->|[->|[->|[->|[->|[->| ->]]]]]]]]]; (eexists; split; [vm_compute; reflexivity|]; split; [cbn; tauto|lia]).
Qed.
Lemma boost_raises index : (index < -4 \/ 5 < index)%Z -> tuple_get ALPHA_LEVEL_BOOSTS_LA (index - 1) = Raise IndexError.
Proof.
  intros H. unfold tuple_get. change (Z.of_nat (length ALPHA_LEVEL_BOOSTS_LA)) with 5%Z. cbv zeta.
  destruct (Z.ltb_spec (index - 1) 0).
  - rewrite (proj2 (Z.leb_gt 0 _)) by lia. reflexivity.
  - rewrite (proj2 (Z.ltb_ge (index - 1) 5)) by lia. now rewrite andb_false_r.
Qed.

Lemma load_slot_index mults infos t s form i index : is_dict infos ->
  small 16 (sl_species s) -> sl_gender s <> None ->
  (exists ivs, defaulted (sl_guaranteed_ivs s) ivs /\ (0 <= ivs < 2 ^ 8)%Z) -> small 32 (sl_base_probability s) ->
  (exists a b, et_min_level t = Some a /\ et_max_level t = Some b /\ (0 <= a <= 235)%Z /\ (0 <= b <= 235)%Z) ->
  defaulted (sl_form s) form -> (0 <= form < 2 ^ 8)%Z ->
  sl_is_alpha s = true -> In (sl_species s, form, i) infos ->
  mi_alpha_level_index i = Some index -> (index < -4 \/ 5 < index)%Z ->
  load_slot mults infos t s = Raise IndexError.
Proof.
  intros Di H1 H2 (ivs & H4 & H4') H5 (a & b & Ea & Eb & Ha & Hb) H3 H3' Al Ei Ex Hx.
  apply defaulted_ok in H3, H4. unfold load_slot. cbv zeta. rewrite H3, H4.
  destruct (store_small _ _ H1) as (n1 & -> & _). destruct (sl_gender s) as [g|] eqn:Eg; [|contradiction].
  change (store 8 (Some g)) with (Ok (Z.to_N (g mod 256))).
  destruct (store_small 8 (Some form)) as (n3 & -> & _); [now exists form|].
  destruct (store_small 8 (Some ivs)) as (n4 & -> & _); [now exists ivs|].
  destruct (store_small _ _ H5) as (n5 & -> & _). cbn [rbind].
  destruct (choose_ok (sl_override_min s) _ _ Ea Ha) as (low & -> & _).
  destruct (choose_ok (sl_override_max s) _ _ Eb Hb) as (high & -> & _). cbn [rbind].
  rewrite Al, (proj2 (get_in sf_eqb sf_eq_ok _ _ _ Di) Ei). cbn [rbind]. rewrite Ex, boost_raises by assumption. reflexivity.
Qed.

Lemma load_slot_missing mults infos t s form : is_dict mults -> is_dict infos ->
  small 16 (sl_species s) -> sl_gender s <> None ->
  (exists ivs, defaulted (sl_guaranteed_ivs s) ivs /\ (0 <= ivs < 2 ^ 8)%Z) -> small 32 (sl_base_probability s) ->
  (exists a b, et_min_level t = Some a /\ et_max_level t = Some b /\ (0 <= a <= 235)%Z /\ (0 <= b <= 235)%Z) ->
  defaulted (sl_form s) form -> (0 <= form < 2 ^ 8)%Z ->
  sl_is_alpha s = true /\ (forall i, ~ In (sl_species s, form, i) infos) \/
  sl_is_alpha s = false /\ sl_eligibility s <> None /\ (forall m, ~ In (sl_species s, form, m) mults) ->
  load_slot mults infos t s = Raise KeyError.
Proof.
  intros Dm Di H1 H2 (ivs & H4 & H4') H5 (a & b & Ea & Eb & Ha & Hb) H3 H3' H.
  apply defaulted_ok in H3, H4. unfold load_slot. cbv zeta. rewrite H3, H4.
  destruct (store_small _ _ H1) as (n1 & -> & _). destruct (sl_gender s) as [g|] eqn:Eg; [|contradiction].
  change (store 8 (Some g)) with (Ok (Z.to_N (g mod 256))).
  destruct (store_small 8 (Some form)) as (n3 & -> & _); [now exists form|].
  destruct (store_small 8 (Some ivs)) as (n4 & -> & _); [now exists ivs|].
  destruct (store_small _ _ H5) as (n5 & -> & _). cbn [rbind].
  destruct (choose_ok (sl_override_min s) _ _ Ea Ha) as (low & -> & _).
  destruct (choose_ok (sl_override_max s) _ _ Eb Hb) as (high & -> & _). cbn [rbind].
  destruct H as [(Al & Hn)|(Al & He & Hn)]; rewrite Al.
  - apply (get_key_error sf_eqb sf_eq_ok _ _ Di) in Hn. rewrite Hn. reflexivity.
  - apply (get_key_error sf_eqb sf_eq_ok _ _ Dm) in Hn. cbn [rbind].
    destruct (sl_eligibility s) as [e|]; [|contradiction]. cbn [rbind]. rewrite Hn. reflexivity.
Qed.

Lemma load_slot_ok mults infos t s : is_dict mults -> is_dict infos -> slot_fits mults infos t s ->
  exists x, load_slot mults infos t s = Ok x /\ slot_loaded mults infos t s x.
Proof.
  intros Dm Di (H1 & H2 & (ivs & H4 & H4') & H5 & (a & b & Ea & Eb & Ha & Hb) & form & H3 & H3' & Halpha & e & m & Ee & Em & Lt & Lw & P).
  rewrite !Forall_app in P. destruct P as (P1 & P2 & P3 & P4).
  apply defaulted_ok in H3, H4. apply (get_in sf_eqb sf_eq_ok _ _ _ Dm) in Em.
  unfold load_slot. cbv zeta. rewrite H3, H4.
  destruct (store_small _ _ H1) as (n1 & -> & X1).
  destruct (sl_gender s) as [g|] eqn:Eg; [|contradiction].
  change (store 8 (Some g)) with (Ok (Z.to_N (g mod 256))).
  destruct (store_small 8 (Some form)) as (n3 & -> & X3); [now exists form|].
  destruct (store_small 8 (Some ivs)) as (n4 & -> & X4); [now exists ivs|].
  injection X3 as X3. injection X4 as X4.
  destruct (store_small _ _ H5) as (n5 & -> & X5). cbn [rbind].
  destruct (choose_ok (sl_override_min s) _ _ Ea Ha) as (low & -> & L1 & L2).
  destruct (choose_ok (sl_override_max s) _ _ Eb Hb) as (high & -> & U1 & U2). cbn [rbind].
  assert (B : exists boost, (if sl_is_alpha s then
           rbind (dict_get sf_eqb infos (sl_species s, form)) (fun i =>
           match mi_alpha_level_index i with
           | Some index => tuple_get ALPHA_LEVEL_BOOSTS_LA (index - 1)
           | None => Raise TypeError
           end)
         else Ok 0%Z) = Ok boost /\ (0 <= boost <= 20)%Z /\
     (if sl_is_alpha s then exists i index,
        In (sl_species s, form, i) infos /\
        mi_alpha_level_index i = Some index /\ alpha_boost index boost
      else boost = 0%Z)).
  { destruct (sl_is_alpha s).
    - destruct (Halpha eq_refl) as (i & index & Ei & Ex & Hx).
      rewrite (proj2 (get_in sf_eqb sf_eq_ok _ _ _ Di) Ei). cbn [rbind]. rewrite Ex.
      destruct (boost_ok index Hx) as (boost & -> & K1 & K2). exists boost. split; [reflexivity|]. split; [exact K2|].
      now exists i, index.
    - exists 0%Z. split; [reflexivity|]. split; [lia|reflexivity]. }
  destruct B as (boost & -> & Hbound & Hboost). cbn [rbind]. rewrite Ee. cbn [rbind]. rewrite Em. cbn [rmap].
  eexists. split; [reflexivity|]. unfold slot_loaded.
  cbn [la_species la_gender la_form la_guaranteed_ivs la_base_probability la_is_alpha la_min_level la_max_level la_time la_weather].
  rewrite !defaulted_ok, <- X3, <- X4.
  split; [exact X1|]. split; [exists g; split; [exact Eg|]; rewrite Z2N.id; [reflexivity|apply Z.mod_pos_bound; lia]|].
  split; [exact H3|]. split; [exact H4|]. split; [exact X5|]. split; [reflexivity|].
  split.
  - exists (Z.of_N low), (Z.of_N high), boost. split; [exact L1|]. split; [exact U1|]. split; [exact Hboost|].
    unfold w8. rewrite !N.mod_small by lia. lia.
  - exists e, m. split; [exact Ee|]. split; [now apply (get_in sf_eqb sf_eq_ok _ _ _ Dm)|]. split; now apply bake_ok.
Qed.

Lemma load_slots_ok mults infos t : is_dict mults -> is_dict infos -> forall l, Forall (slot_fits mults infos t) l ->
  exists xs, load_slots mults infos t l = Ok xs /\ Forall2 (slot_loaded mults infos t) l xs.
Proof.
  intros Dm Di. induction l as [|s l IH]; intros H; cbn [load_slots]; [exists []; now split|].
  inversion H as [|? ? H1 H2]; subst. destruct (load_slot_ok mults infos t s Dm Di H1) as (x & -> & Hx). cbn [rbind].
  destruct (IH H2) as (xs & -> & Hxs). cbn [rmap]. exists (x :: xs). split; [reflexivity|]. now constructor.
Qed.
Lemma load_area_ok mults infos t : is_dict mults -> is_dict infos -> table_fits mults infos t ->
  exists a, load_area mults infos t = Ok a /\ area_loaded mults infos t a.
Proof.
  intros Dm Di [H1 H2]. unfold load_area. destruct (store_small _ _ H1) as (id & -> & Hid). cbn [rbind].
  destruct (load_slots_ok mults infos t Dm Di _ H2) as (xs & -> & Hxs). cbn [rmap].
  exists (mkAreaLA id xs). split; [reflexivity|]. now split.
Qed.

Lemma N_eq_ok : eq_ok N.eqb.
Proof. exact N.eqb_eq. Qed.

(** Areas are added one by one: the last one with an id stays. *)
Lemma load_areas_ok mults infos : is_dict mults -> is_dict infos ->
  forall tables, Forall (table_fits mults infos) tables ->
  exists d, load_areas mults infos tables [] = Ok d /\ is_dict d /\ forall id, area_under mults infos tables d id.
Proof.
  intros Dm Di tables. 
  assert (G : forall tables seen d, Forall (table_fits mults infos) tables -> is_dict d ->
    (forall id, area_under mults infos seen d id) ->
    exists d', load_areas mults infos tables d = Ok d' /\ is_dict d' /\ forall id, area_under mults infos (seen ++ tables) d' id).
  2:{ intros H. destruct (G tables [] [] H) as (d & E & D & U); [constructor| |now exists d].
      intros id. split; [contradiction|]. intros t Ht. now apply last_nil in Ht. }
  clear tables. induction tables as [|t tables IH]; intros seen d H D U; cbn [load_areas].
  { exists d. rewrite app_nil_r. split; [reflexivity|]. split; [exact D|exact U]. }
  inversion H as [|? ? H1 H2]; subst. destruct (load_area_ok mults infos t Dm Di H1) as (a & -> & Ha). cbn [rbind].
  destruct (IH (seen ++ [t]) (dict_set N.eqb d (al_table_id a) a) H2) as (d' & E & D' & U').
  - now apply (set_dict N.eqb N_eq_ok).
  - intros id. specialize (U id). destruct U as [U1 U2].
    pose proof (set_dict N.eqb N_eq_ok d (al_table_id a) a D) as Ds.
    assert (Hg : forall x, In (id, x) (dict_set N.eqb d (al_table_id a) a) <->
        (al_table_id a = id /\ x = a) \/ (al_table_id a <> id /\ In (id, x) d)).
    { intros x. rewrite <- (get_in N.eqb N_eq_ok _ _ _ Ds), (get_set N.eqb N_eq_ok), <- (get_in N.eqb N_eq_ok _ _ _ D).
      destruct (N.eqb_spec (al_table_id a) id) as [K|K]; split; intros X; [injection X as ->; auto| |auto|];
        intuition congruence. }
    assert (Ht : et_id t = Some (Z.of_N id) <-> al_table_id a = id).
    { destruct Ha as [Hid _]. rewrite Hid. split; [intros X; injection X; lia|now intros ->]. }
    split.
    + intros x Hx. apply Hg in Hx as [[K ->]|[K Hx]].
      * exists t. split; [|exact Ha]. apply last_snoc. left. split; [now apply Ht|reflexivity].
      * destruct (U1 x Hx) as (t' & L & A). exists t'. split; [|exact A]. apply last_snoc. right. split; [now rewrite Ht|exact L].
    + intros t' L. apply last_snoc in L as [[K ->]|[K L]].
      * exists a. apply Hg. left. split; [now apply Ht|reflexivity].
      * destruct (U2 t' L) as (x & Hx). exists x. apply Hg. right. split; [now rewrite <- Ht|exact Hx].
  - exists d'. rewrite <- app_assoc in U'. cbn [app] in U'. auto.
Qed.

Lemma load_ok mults infos file o tables : is_dict mults -> is_dict infos ->
  root_at file o -> vector_is etable_is o 0 tables -> Forall (table_fits mults infos) tables ->
  exists d, load_encounter_tables_la mults infos file = Ok d /\ is_dict d /\
    forall id, area_under mults infos tables d id.
Proof.
  intros Dm Di Hr Hv Hf. unfold load_encounter_tables_la, etable_table.
  destruct (root_vector file o etable_new etable_is tables etable_reads Hr Hv) as (st & st' & -> & E). cbn [rbind].
  rewrite E. cbn [rmap rbind]. exact (load_areas_ok mults infos Dm Di tables Hf).
Qed.

(** ** Numbers that are not there *)
Lemma store_raises bits x e : store bits x = Raise e -> e = TypeError.
Proof. destruct x; [discriminate|]. intros E. now injection E as <-. Qed.
Lemma store_none bits x : x = None -> store bits x = Raise TypeError. Proof. intros ->. reflexivity. Qed.
Lemma store_bind {A} bits x (f : N -> res A) : x = None \/ (forall v, f v = Raise TypeError) ->
  rbind (store bits x) f = Raise TypeError.
Proof.
  intros [H|H]; [rewrite (store_none bits x H); reflexivity|].
  destruct (store bits x) eqn:E; [apply H|]. apply store_raises in E. subst. reflexivity.
Qed.
Lemma choose_none o l : o = Some 0%Z -> l = None -> choose_level o l = None. Proof. intros -> ->. reflexivity. Qed.
Lemma load_missing_number mults infos :
  (forall t s,
     sl_species s = None \/ sl_base_probability s = None \/
     (et_min_level t = None /\ sl_override_min s = Some 0%Z) \/
     (et_max_level t = None /\ sl_override_max s = Some 0%Z) ->
     load_slot mults infos t s = Raise TypeError) /\
  forall t, et_id t = None -> load_area mults infos t = Raise TypeError.
Proof.
  split.
  - intros t s H. unfold load_slot. cbv zeta. apply store_bind. destruct H as [H|H]; [now left|]. right. intros ?.
    do 3 (apply store_bind; right; intros ?). apply store_bind.
    destruct H as [H|[[H K]|H]].
    + right. intros ?. apply store_bind. right. intros ?. apply store_bind. now left.
    + left. now apply choose_none.
    + right. intros ?. apply store_bind. left. destruct H. now apply choose_none.
  - intros t H. unfold load_area. apply store_bind. now left.
Qed.
