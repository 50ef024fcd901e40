(** The bundled data of generation 3, evaluated once. Looking up a species compares
    strings with a common prefix, so the evaluation runs on reversed strings, which the
    loader cannot tell from the original ones. *)
From Coq Require Import NArith Arith Ascii String List Bool Lia.
From Verif Require Import Base.Word Model.Gen3State Model.Gen3Area Model.Gen3Wild Model.Encounter3 Model.Trie Model.PersRS Model.PersE Model.PersFR Model.PersLG
  Model.EncounterData3 Model.Personal Model.Bundled3.
Import ListNotations.
Open Scope list_scope.
Open Scope N_scope.

(** ** Renaming the species *)
Definition map_mon (h : string -> string) (m : mon) : mon := mkMon (m_min m) (m_max m) (h (m_species m)).
Definition map_mons (h : string -> string) (g : mons) : mons := mkMons (m_rate g) (map (map_mon h) (m_list g)).
Definition map_enc (h : string -> string) (e : encounter) : encounter :=
  mkEnc (e_map e) (e_label e) (option_map (map_mons h) (e_land e)) (option_map (map_mons h) (e_water e))
    (option_map (map_mons h) (e_rock e)) (option_map (map_mons h) (e_fish e)).
Definition map_files (h : string -> string) (f : files) : files :=
  mkFiles (map (map_enc h) (f_rs f)) (map (map_enc h) (f_e f)) (map (map_enc h) (f_frlg f)).

Section Rename.
Variable h : string -> string.
Hypothesis inj : forall a b, h a = h b -> a = b.

Lemma eqb_h a b : String.eqb (h a) (h b) = String.eqb a b.
Proof.
  destruct (String.eqb_spec a b) as [->|H]; [apply String.eqb_refl|].
  apply String.eqb_neq. intros E. now apply H, inj.
Qed.
Lemma index_h l s : forall k, index (map h l) (h s) k = index l s k.
Proof. induction l as [|x l IH]; intros k; cbn [map index]; [reflexivity|]. now rewrite eqb_h, IH. Qed.
Lemma put_mon_h names form slots i m :
  put_mon (map h names) form slots i (map_mon h m) = put_mon names form slots i m.
Proof. unfold put_mon. cbn [map_mon m_species m_min m_max]. now rewrite index_h. Qed.
Lemma put_mons_h names forms l : forall slots i,
  put_mons (map h names) forms slots i (map (map_mon h) l) = put_mons names forms slots i l.
Proof.
  induction l as [|m l IH]; intros slots i; cbn [map put_mons]; [reflexivity|]. rewrite put_mon_h.
  destruct (put_mon _ _ _ _ _); [apply IH|reflexivity].
Qed.
Lemma put_fish_h names l : forall rods i,
  put_fish (map h names) rods i (map (map_mon h) l) = put_fish names rods i l.
Proof.
  induction l as [|m l IH]; intros [[a b] c] i; cbn [map put_fish]; [reflexivity|]. rewrite !put_mon_h.
  destruct (if (i <? 2)%nat then _ else _) as [r|]; [apply IH|reflexivity].
Qed.
Lemma fill_area_h names k e : fill_area (map h names) k (map_enc h e) = fill_area names k e.
Proof.
  destruct e as [mp lb ld wt rk fs]. unfold fill_area. cbn [map_enc e_map e_label e_land e_water e_rock e_fish].
  destruct ld, wt, rk, fs; cbn [option_map map_mons m_rate m_list]; rewrite ?put_mons_h, ?put_fish_h; reflexivity.
Qed.
Lemma fill_areas_h names l : forall k, fill_areas (map h names) k (map (map_enc h) l) = fill_areas names k l.
Proof.
  induction l as [|e l IH]; intros k; cbn [map fill_areas]; [reflexivity|]. rewrite fill_area_h, IH. reflexivity.
Qed.
Lemma filter_h w l : filter (fun e => contains w (e_label e)) (map (map_enc h) l)
  = map (map_enc h) (filter (fun e => contains w (e_label e)) l).
Proof.
  induction l as [|e l IH]; cbn [map filter]; [reflexivity|]. cbn [map_enc e_label].
  destruct (contains w (e_label e)); cbn [map]; now rewrite IH.
Qed.
Lemma load_h names f game : load_encounter_3 (map h names) (map_files h f) game = load_encounter_3 names f game.
Proof.
  unfold load_encounter_3, kept. cbn [map_files f_rs f_e f_frlg]. rewrite !filter_h.
  repeat match goal with |- context[if ?b then _ else _] => destruct b end; cbn [rbind]; try apply fill_areas_h. reflexivity.
Qed.
End Rename.

(** ** Reversal *)
Fixpoint rev_onto (s t : string) : string :=
  match s with EmptyString => t | String c s' => rev_onto s' (String c t) end.
Definition backwards (s : string) : string := rev_onto s "".
Lemma rev_onto_twice s : forall t u, rev_onto (rev_onto s t) u = rev_onto t (s ++ u)%string.
Proof.
  induction s as [|c s IH]; intros t u; cbn [rev_onto]; [reflexivity|]. now rewrite IH.
Qed.
Lemma append_nil s : (s ++ "")%string = s.
Proof. induction s as [|c s IH]; cbn; [reflexivity|]. now rewrite IH. Qed.
Lemma backwards_inj a b : backwards a = backwards b -> a = b.
Proof.
  intros H. assert (K : forall s, backwards (backwards s) = s).
  { intros s. unfold backwards. rewrite rev_onto_twice. cbn [rev_onto]. apply append_nil. }
  now rewrite <- (K a), H, K.
Qed.

(** ** The values *)
Definition back_names : list string := Eval vm_compute in map backwards species_names.
Definition back_files : files := Eval vm_compute in map_files backwards bundled_files.
Lemma back_names_ok : map backwards species_names = back_names.
Proof. vm_cast_no_check (eq_refl back_names). Qed.
Lemma back_files_ok : map_files backwards bundled_files = back_files.
Proof. vm_cast_no_check (eq_refl back_files). Qed.
Lemma bundled_back game : bundled game = load_encounter_3 back_names back_files game.
Proof. rewrite <- back_names_ok, <- back_files_ok. symmetry. exact (load_h backwards backwards_inj species_names bundled_files game). Qed.

Definition value_of (game : N) : list string * list area3 :=
  match load_encounter_3 back_names back_files game with Ok x => x | Raise _ => ([], []) end.
Definition areas_ruby := Eval vm_compute in value_of Game_RUBY.
Definition areas_sapphire := Eval vm_compute in value_of Game_SAPPHIRE.
Definition areas_emerald := Eval vm_compute in value_of Game_EMERALD.
Definition areas_fire_red := Eval vm_compute in value_of Game_FIRE_RED.
Definition areas_leaf_green := Eval vm_compute in value_of Game_LEAF_GREEN.
Lemma bundled_ruby : bundled Game_RUBY = Ok areas_ruby.
Proof. rewrite bundled_back. vm_cast_no_check (eq_refl (Ok areas_ruby)). Qed.
Lemma bundled_sapphire : bundled Game_SAPPHIRE = Ok areas_sapphire.
Proof. rewrite bundled_back. vm_cast_no_check (eq_refl (Ok areas_sapphire)). Qed.
Lemma bundled_emerald : bundled Game_EMERALD = Ok areas_emerald.
Proof. rewrite bundled_back. vm_cast_no_check (eq_refl (Ok areas_emerald)). Qed.
Lemma bundled_fire_red : bundled Game_FIRE_RED = Ok areas_fire_red.
Proof. rewrite bundled_back. vm_cast_no_check (eq_refl (Ok areas_fire_red)). Qed.
Lemma bundled_leaf_green : bundled Game_LEAF_GREEN = Ok areas_leaf_green.
Proof. rewrite bundled_back. vm_cast_no_check (eq_refl (Ok areas_leaf_green)). Qed.

(** ** The personal tables *)
Lemma records_concat size rs : (0 < size)%nat -> Forall (fun r => length r = size) rs ->
  forall fuel, (length (concat rs) <= fuel)%nat -> records fuel size (concat rs) = rs.
Proof.
  intros Hs. induction rs as [|r rs IH]; intros Hf fuel Hl.
  - destruct fuel as [|fuel]; [reflexivity|]. cbn [concat records length].
    destruct (Nat.leb_spec size 0); [lia|reflexivity].
  - apply Forall_cons_iff in Hf as [Hr Hf]. cbn [concat] in *. rewrite app_length, Hr in Hl.
    destruct fuel as [|fuel]; [lia|]. cbn [records]. rewrite app_length, Hr.
    destruct (Nat.leb_spec size (size + length (concat rs))); [|lia].
    rewrite firstn_app, skipn_app, Hr, Nat.sub_diag. rewrite <- Hr at 1 3. rewrite firstn_all, skipn_all.
    cbn [firstn skipn app]. rewrite app_nil_r. f_equal. apply (IH Hf). lia.
Qed.
Definition info_of (r : list N) : personal3 :=
  let b i := nth 0 (skipn i r) 0 in
  {| pi_hp := b 0; pi_attack := b 1; pi_defense := b 2; pi_speed := b 3; pi_special_attack := b 4;
     pi_special_defense := b 5; pi_type_1 := b 6; pi_type_2 := b 7; pi_gender_ratio := b 16;
     pi_ability_1 := b 22; pi_ability_2 := b 23 |}%nat.
Lemma decode_all_map l : decode_all l = Ok (map info_of l).
Proof.
  induction l as [|r l IH]; cbn [decode_all map]; [reflexivity|]. rewrite IH.
  assert (E : decode3 r = Ok (info_of r)) by reflexivity. now rewrite E.
Qed.
Fixpoint bytes_from (t : Trie.trie) (n : nat) (i : N) : list N :=
  match n with
  | O => []
  | S k => Trie.byte_at t i :: bytes_from t k (N.succ i)
  end.
Lemma bytes_from_ok t n : forall i, bytes_from t n (N.of_nat i) = map (fun i => Trie.byte_at t (N.of_nat i)) (seq i n).
Proof.
  induction n as [|n IH]; intros i; cbn [bytes_from seq map]; [reflexivity|].
  now rewrite <- Nat2N.inj_succ, IH.
Qed.
Lemma decoded_concat t size rs infos : bytes_from t (N.to_nat size) 0 = concat rs ->
  forallb (fun r => (length r =? 28)%nat) rs = true -> map info_of rs = infos ->
  decoded (Trie.file_bytes t size) = infos.
Proof.
  intros E H <-. unfold Trie.file_bytes. rewrite <- bytes_from_ok. change (N.of_nat 0) with 0. rewrite E.
  unfold decoded, load_personal. rewrite decode_all_map. f_equal.
  change (record_size PersonalLayouts.PersonalInfo3) with 28%nat. apply records_concat; [lia| |apply Nat.le_refl].
  apply Forall_forall. intros r Hr. rewrite forallb_forall in H. now apply Nat.eqb_eq, H.
Qed.
Definition recs (b : list N) := load_personal PersonalLayouts.PersonalInfo3 b.
Definition recs_rs := Eval vm_compute in recs PersonalData3.personal_rs_bytes.
Definition recs_e := Eval vm_compute in recs PersonalData3.personal_e_bytes.
Definition recs_fr := Eval vm_compute in recs PersonalData3.personal_fr_bytes.
Definition recs_lg := Eval vm_compute in recs PersonalData3.personal_lg_bytes.
Definition info_rs := Eval vm_compute in map info_of recs_rs.
Definition info_e := Eval vm_compute in map info_of recs_e.
Definition info_fr := Eval vm_compute in map info_of recs_fr.
Definition info_lg := Eval vm_compute in map info_of recs_lg.
Definition tables_value : tables3 := mkTables3 info_rs info_e info_fr info_lg.
Lemma decoded_rs : decoded PersonalData3.personal_rs_bytes = info_rs.
Proof.
  apply (decoded_concat PersRS.rs_trie PersRS.rs_size recs_rs).
  - vm_cast_no_check (eq_refl (concat recs_rs)).
  - vm_cast_no_check (eq_refl true).
  - vm_cast_no_check (eq_refl info_rs).
Qed.
Lemma decoded_e : decoded PersonalData3.personal_e_bytes = info_e.
Proof.
  apply (decoded_concat PersE.e_trie PersE.e_size recs_e).
  - vm_cast_no_check (eq_refl (concat recs_e)).
  - vm_cast_no_check (eq_refl true).
  - vm_cast_no_check (eq_refl info_e).
Qed.
Lemma decoded_fr : decoded PersonalData3.personal_fr_bytes = info_fr.
Proof.
  apply (decoded_concat PersFR.fr_trie PersFR.fr_size recs_fr).
  - vm_cast_no_check (eq_refl (concat recs_fr)).
  - vm_cast_no_check (eq_refl true).
  - vm_cast_no_check (eq_refl info_fr).
Qed.
Lemma decoded_lg : decoded PersonalData3.personal_lg_bytes = info_lg.
Proof.
  apply (decoded_concat PersLG.lg_trie PersLG.lg_size recs_lg).
  - vm_cast_no_check (eq_refl (concat recs_lg)).
  - vm_cast_no_check (eq_refl true).
  - vm_cast_no_check (eq_refl info_lg).
Qed.
Lemma tables_ok : bundled_tables = tables_value.
Proof.
  unfold bundled_tables. rewrite decoded_rs, decoded_e, decoded_fr, decoded_lg. exact (eq_refl tables_value).
Qed.
