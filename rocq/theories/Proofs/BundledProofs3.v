(** Facts about the bundled data of generation 3, by evaluation. *)
From Coq Require Import NArith ZArith Arith String List Bool Lia.
From Verif Require Import Base.Word Model.Gen3State Model.Gen3Area Model.Gen3Wild Model.Encounter3
  Model.EncounterData3 Model.Bundled3 Spec.Encounter3Spec Spec.LcrngSpec Spec.Gen3Spec Spec.Gen3WildSpec Proofs.Encounter3Proofs.
From Verif Require Import Proofs.Gen3Props Proofs.BundledLit3.
Import ListNotations.
Open Scope list_scope.
Open Scope N_scope.

(** ** Checks as booleans *)
Definition slot_okb (s : slot3) : bool :=
  (s_min_level s <=? s_max_level s) && (s_max_level s <? 256) && (s_species s <? 65536).
Definition all_slots (a : area3) : list slot3 :=
  a_land a ++ a_water a ++ a_rock a ++ a_fish_old a ++ a_fish_good a ++ a_fish_super a.
Definition shapeb (a : area3) : bool :=
  ((length (a_land a) =? 12) && (length (a_water a) =? 5) && (length (a_rock a) =? 5) &&
   (length (a_fish_old a) =? 2) && (length (a_fish_good a) =? 3) && (length (a_fish_super a) =? 5))%nat.
Definition area_okb (a : area3) : bool :=
  shapeb a &&
  forallb (fun s => slot_okb s && (species_of s <? 387) && (negb (species_of s =? 201) || (form_of s <? 28)))
    (all_slots a).
Definition info_okb (i : personal3) : bool :=
  forallb (fun n => n <? 256)
    [pi_hp i; pi_attack i; pi_defense i; pi_speed i; pi_special_attack i; pi_special_defense i;
     pi_gender_ratio i].

Lemma slots_in_all a e : incl (slots_of a e) (all_slots a).
Proof.
  intros s H. unfold slots_of in H. unfold all_slots. rewrite !in_app_iff.
  destruct (e =? _); [tauto|]. destruct (e =? _); [tauto|]. destruct (e =? _); [tauto|].
  destruct (e =? _); [tauto|]. destruct (e =? _); tauto.
Qed.

Lemma area_okb_ok a : area_okb a = true ->
  area_ok a /\ forall e, Forall (fun s => species_of s < 387 /\ (species_of s = 201 -> form_of s < 28)) (slots_of a e).
Proof.
  unfold area_okb. intros H. apply andb_prop in H as [H1 H2]. rewrite forallb_forall in H2.
  assert (G : forall s, In s (all_slots a) -> slot_ok s /\ species_of s < 387 /\ (species_of s = 201 -> form_of s < 28)).
  { intros s Hs. specialize (H2 s Hs). apply andb_prop in H2 as [H2 H3]. apply andb_prop in H2 as [H2 H4].
    unfold slot_okb in H2. apply andb_prop in H2 as [H2 H6]. apply andb_prop in H2 as [H2 H5].
    apply N.leb_le in H2. apply N.ltb_lt in H4, H5, H6. split; [now split|]. split; [exact H4|].
    intros E. rewrite E in H3. cbn in H3. now apply N.ltb_lt. }
  split; [split|].
  - unfold shapeb in H1. rewrite !andb_true_iff, !Nat.eqb_eq in H1. unfold area_shape. tauto.
  - intros e. apply Forall_forall. intros s Hs. now apply G, (slots_in_all a e).
  - intros e. apply Forall_forall. intros s Hs. now apply G, (slots_in_all a e).
Qed.

Lemma info_okb_ok i : info_okb i = true -> info_ok i.
Proof.
  unfold info_okb. cbn [forallb]. rewrite !andb_true_iff, !N.ltb_lt. unfold info_ok. tauto.
Qed.

(** ** The tables *)
Lemma table_ok game : N.of_nat (length (get_info_table_3 bundled_tables game)) = 387 /\
  Forall info_ok (get_info_table_3 bundled_tables game).
Proof.
  assert (G : forall t, ((length t =? 387)%nat && forallb info_okb t) = true ->
    N.of_nat (length t) = 387 /\ Forall info_ok t).
  { intros t H. apply andb_prop in H as [H1 H2]. apply Nat.eqb_eq in H1. rewrite H1. split; [reflexivity|].
    apply Forall_forall. intros i Hi. rewrite forallb_forall in H2. now apply info_okb_ok, H2. }
  rewrite tables_ok. unfold get_info_table_3.
  destruct (negb _); [apply G; vm_compute; reflexivity|].
  destruct (negb _); [apply G; vm_compute; reflexivity|].
  destruct (negb _); apply G; vm_compute; reflexivity.
Qed.

(** ** The areas *)
Lemma for_games (f : N -> res (list string * list area3) -> bool) :
  f Game_RUBY (Ok areas_ruby) = true -> f Game_SAPPHIRE (Ok areas_sapphire) = true ->
  f Game_EMERALD (Ok areas_emerald) = true -> f Game_FIRE_RED (Ok areas_fire_red) = true ->
  f Game_LEAF_GREEN (Ok areas_leaf_green) = true ->
  forall game, In game gen3_games -> f game (bundled game) = true.
Proof.
  intros H1 H2 H3 H4 H5 game H. cbn [gen3_games In] in H.
  destruct H as [<-|[<-|[<-|[<-|[<-|[]]]]]].
  - rewrite bundled_ruby. exact H1.
  - rewrite bundled_sapphire. exact H2.
  - rewrite bundled_emerald. exact H3.
  - rewrite bundled_fire_red. exact H4.
  - rewrite bundled_leaf_green. exact H5.
Qed.
Definition game_okb (r : res (list string * list area3)) : bool :=
  match r with Ok (ns, areas) => (length ns =? length areas)%nat && forallb area_okb areas | Raise _ => false end.
Lemma games_ok game : In game gen3_games -> game_okb (bundled game) = true.
Proof. apply (for_games (fun _ => game_okb)); vm_cast_no_check (eq_refl true). Qed.

Lemma bundled_ok game : In game gen3_games -> exists ns areas, bundled game = Ok (ns, areas) /\
  length ns = length areas /\
  forall a, In a areas -> area_ok a /\
    forall e, Forall (fun s => species_of s < 387 /\ (species_of s = 201 -> form_of s < 28)) (slots_of a e).
Proof.
  intros H. pose proof (games_ok game H) as G. unfold game_okb in G.
  destruct (bundled game) as [[ns areas]|]; [|discriminate]. apply andb_prop in G as [G1 G2].
  exists ns, areas. split; [reflexivity|]. split; [now apply Nat.eqb_eq|].
  intros a Ha. rewrite forallb_forall in G2. now apply area_okb_ok, G2.
Qed.

Lemma bundled_setting game ns areas area : In game gen3_games -> bundled game = Ok (ns, areas) -> In area areas ->
  forall method encounter lead tid sid,
  setting_ok (wild_new bundled_tables method encounter lead game tid sid) area /\
  Forall (fun s => species_of s = 201 -> form_of s < 28)
    (slots_of area (w_encounter (wild_new bundled_tables method encounter lead game tid sid))).
Proof.
  intros Hg Hb Ha method encounter lead tid sid.
  destruct (bundled_ok game Hg) as (ns' & areas' & E & _ & H). rewrite Hb in E. injection E as <- <-.
  destruct (H area Ha) as [H1 H2]. specialize (H2 (w8 encounter)). unfold setting_ok.
  cbn [wild_new w_table w_encounter]. destruct (table_ok (w8 game)) as [T1 T2].
  split; [split; [exact H1|split; [exact T2|split]]|].
  - rewrite T1. discriminate.
  - rewrite T1. eapply Forall_impl; [|exact H2]. now intros s [Hs _].
  - eapply Forall_impl; [|exact H2]. now intros s [_ Hs].
Qed.

(** ** Names *)
Definition nonempty_distinct (l : list string) : bool :=
  (fix go (l : list string) := match l with
   | [] => true
   | x :: l' => (String.eqb x "" || negb (existsb (String.eqb x) l')) && go l'
   end) l.
Lemma nonempty_distinct_ok l : nonempty_distinct l = true ->
  forall i j n, nth_error l i = Some n -> nth_error l j = Some n -> n <> ""%string -> i = j.
Proof.
  induction l as [|x l IH]; intros H i j n Hi Hj Hn; [destruct i; discriminate|].
  cbn in H. apply andb_prop in H as [H1 H2].
  assert (K : forall k, nth_error l k = Some x -> x <> ""%string -> False).
  { intros k Hk Hx. apply orb_prop in H1 as [H1|H1].
    - apply String.eqb_eq in H1. contradiction.
    - apply negb_true_iff in H1. assert (existsb (String.eqb x) l = true); [|congruence].
      apply existsb_exists. exists x. split; [now apply nth_error_In in Hk|apply String.eqb_refl]. }
  destruct i as [|i], j as [|j]; cbn in Hi, Hj; [reflexivity| | |].
  - injection Hi as ->. exfalso. now apply (K j).
  - injection Hj as ->. exfalso. now apply (K i).
  - f_equal. now apply (IH H2 i j n).
Qed.

Lemma names_distinct game ns areas : In game gen3_games -> bundled game = Ok (ns, areas) ->
  forall i j n, nth_error ns i = Some n -> nth_error ns j = Some n -> n <> ""%string -> i = j.
Proof.
  intros Hg Hb. apply nonempty_distinct_ok.
  pose proof (for_games (fun _ r => match r with Ok (ns, _) => nonempty_distinct ns | _ => false end)) as G.
  rewrite <- (G ltac:(vm_compute; reflexivity) ltac:(vm_compute; reflexivity) ltac:(vm_compute; reflexivity)
    ltac:(vm_compute; reflexivity) ltac:(vm_compute; reflexivity) game Hg). now rewrite Hb.
Qed.

(** ** Safari zones *)
Definition safari_okb (game : N) (r : res (list string * list area3)) : bool :=
  match r with
  | Ok (ns, areas) => forallb (fun na => Bool.eqb (is_rse_safari_zone (snd na) game) (contains "Safari Zone" (fst na))) (combine ns areas)
  | _ => false
  end.
Lemma safari_names game ns areas : In game [Game_RUBY; Game_SAPPHIRE; Game_EMERALD] -> bundled game = Ok (ns, areas) ->
  forall i n a, nth_error ns i = Some n -> nth_error areas i = Some a ->
  (is_rse_safari_zone a game = true <-> occurs "Safari Zone" n).
Proof.
  intros Hg Hb i n a Hn Ha. rewrite <- contains_occurs.
  assert (G : safari_okb game (bundled game) = true).
  { cbn [In] in Hg. destruct Hg as [<-|[<-|[<-|[]]]].
    - rewrite bundled_ruby. vm_compute. reflexivity.
    - rewrite bundled_sapphire. vm_compute. reflexivity.
    - rewrite bundled_emerald. vm_compute. reflexivity. }
  rewrite Hb in G. unfold safari_okb in G. rewrite forallb_forall in G.
  assert (Hin : In (n, a) (combine ns areas)).
  { clear - Hn Ha. revert areas i Hn Ha. induction ns as [|x ns IH]; intros areas i Hn Ha; [destruct i; discriminate|].
    destruct areas as [|y areas]; [destruct i; discriminate|]. destruct i as [|i]; cbn in *.
    - left. congruence.
    - right. now apply (IH areas i). }
  specialize (G (n, a) Hin). cbn [fst snd] in G. apply eqb_prop in G. now rewrite G.
Qed.

(** ** Cute Charm in Emerald *)
Definition male_only (table : list personal3) (s : slot3) : bool :=
  match nth_error table (N.to_nat (species_of s)) with Some i => pi_gender_ratio i =? 0 | None => false end.
Definition encounter_types : list N :=
  [Encounter_GRASS; Encounter_ROCK_SMASH; Encounter_SURFING; Encounter_OLD_ROD; Encounter_GOOD_ROD; Encounter_SUPER_ROD].

(** All-male species are only in the grass of area 11, and no area has an Unown. *)
Definition emerald_check (table : list personal3) (r : res (list string * list area3)) : bool :=
  match r with
  | Ok (_, areas) =>
      forallb (fun a => forallb (fun e =>
        ((a_location a =? 11) && (e =? Encounter_GRASS)) ||
        forallb (fun s => (species_of s =? 0) || negb (male_only table s)) (slots_of a e))
        encounter_types
        && forallb (fun s => negb (species_of s =? 201)) (all_slots a)) areas
  | Raise _ => false
  end.
Lemma emerald_checked : emerald_check (t_e bundled_tables) (bundled Game_EMERALD) = true.
Proof. rewrite tables_ok, bundled_emerald. vm_cast_no_check (eq_refl true). Qed.

Lemma slots_of_type a e : exists t, In t encounter_types /\ slots_of a e = slots_of a t.
Proof.
  unfold encounter_types, slots_of.
  destruct (N.eqb_spec e Encounter_OLD_ROD) as [->|]; [exists Encounter_OLD_ROD; cbn; tauto|].
  destruct (N.eqb_spec e Encounter_GOOD_ROD) as [->|]; [exists Encounter_GOOD_ROD; cbn; tauto|].
  destruct (N.eqb_spec e Encounter_SUPER_ROD) as [->|]; [exists Encounter_SUPER_ROD; cbn; tauto|].
  destruct (N.eqb_spec e Encounter_ROCK_SMASH) as [->|]; [exists Encounter_ROCK_SMASH; cbn; tauto|].
  destruct (N.eqb_spec e Encounter_SURFING) as [->|]; [exists Encounter_SURFING; cbn; tauto|].
  exists Encounter_GRASS. cbn. tauto.
Qed.

Lemma emerald_satisfiable ns areas area e lead ratio s info charm :
  bundled Game_EMERALD = Ok (ns, areas) -> In area areas ->
  (a_location area <> 11 \/ In e [Encounter_ROCK_SMASH; Encounter_SURFING; Encounter_OLD_ROD; Encounter_GOOD_ROD; Encounter_SUPER_ROD]) ->
  In s (slots_of area e) -> species_of s <> 0 ->
  nth_error (t_e bundled_tables) (N.to_nat (species_of s)) = Some info -> ratio = pi_gender_ratio info ->
  satisfiable lead ratio (species_of s) (form_of s) charm.
Proof.
  intros Hb Ha He Hs H0 Hi ->. pose proof emerald_checked as C. rewrite Hb in C. unfold emerald_check in C.
  rewrite forallb_forall in C. specialize (C area Ha). apply andb_prop in C as [C1 C2].
  rewrite forallb_forall in C1, C2.
  assert (Hu : species_of s <> 201).
  { specialize (C2 s (slots_in_all area e s Hs)). apply negb_true_iff in C2. now apply N.eqb_neq. }
  split; [contradiction|]. split; [contradiction|]. intros _ _ Hr.
  assert (K : forall t, In t encounter_types -> (a_location area <> 11 \/ t <> Encounter_GRASS) ->
              In s (slots_of area t) -> False).
  { intros t Ht Hor Hst. specialize (C1 t Ht). apply orb_prop in C1 as [C1|C1].
    - apply andb_prop in C1 as [L1 L2]. apply N.eqb_eq in L1, L2. destruct Hor; contradiction.
    - rewrite forallb_forall in C1. specialize (C1 s Hst). apply orb_prop in C1 as [C1|C1].
      + apply N.eqb_eq in C1. contradiction.
      + unfold male_only in C1. rewrite Hi, Hr in C1. discriminate C1. }
  destruct He as [He|He].
  - destruct (slots_of_type area e) as (t & Ht & Et). apply (K t Ht (or_introl He)). rewrite <- Et. exact Hs.
  - apply (K e); [right; exact He| |exact Hs]. right. intros ->. cbn in He.
    repeat destruct He as [He|He]; discriminate He || destruct He.
Qed.

(** ** The bundled files are valid *)
Fixpoint memberb (x : string) (l : list string) : bool :=
  match l with [] => false | y :: l' => if String.eqb x y then true else memberb x l' end.
Lemma memberb_in x l : memberb x l = true -> In x l.
Proof.
  induction l as [|y l IH]; cbn [memberb In]; [discriminate|].
  destruct (String.eqb_spec x y) as [->|_]; [now left|]. intros H. right. now apply IH.
Qed.
Definition mon_validb (names : list string) (m : mon) : bool :=
  (m_min m <? 256) && (m_max m <? 256) && memberb (m_species m) names.
Definition mons_validb (names : list string) (count : nat) (o : option mons) : bool :=
  (rate o <? 256) && Nat.leb (length (listed o)) count && forallb (mon_validb names) (listed o).
Definition enc_validb (names : list string) (e : encounter) : bool :=
  mons_validb names 12 (e_land e) && mons_validb names 5 (e_water e) && mons_validb names 5 (e_rock e)
  && mons_validb names 10 (e_fish e).

Lemma mons_validb_ok names count o : mons_validb names count o = true -> mons_valid names count o.
Proof.
  unfold mons_validb. intros H. apply andb_prop in H as [H H3]. apply andb_prop in H as [H1 H2].
  split; [now apply N.ltb_lt|]. split; [now apply Nat.leb_le|].
  apply Forall_forall. intros m Hm. rewrite forallb_forall in H3. specialize (H3 m Hm). unfold mon_validb in H3.
  apply andb_prop in H3 as [H3 K3]. apply andb_prop in H3 as [K1 K2].
  split; [now apply N.ltb_lt|]. split; [now apply N.ltb_lt|].
  now apply memberb_in.
Qed.
Lemma enc_validb_ok names e : enc_validb names e = true -> enc_valid names e.
Proof.
  unfold enc_validb. intros H. apply andb_prop in H as [H H4]. apply andb_prop in H as [H H3].
  apply andb_prop in H as [H1 H2]. apply mons_validb_ok in H1, H2, H3, H4. repeat split; assumption || apply H1 || apply H2 || apply H3 || apply H4.
Qed.

(** Renaming the species does not change validity. *)
Section Rename.
Variable h : string -> string.
Hypothesis inj : forall a b, h a = h b -> a = b.
Lemma memberb_h x l : memberb (h x) (map h l) = memberb x l.
Proof. induction l as [|y l IH]; cbn [map memberb]; [reflexivity|]. now rewrite (eqb_h h inj), IH. Qed.
Lemma mon_validb_h names l : forallb (mon_validb (map h names)) (map (map_mon h) l) = forallb (mon_validb names) l.
Proof.
  induction l as [|m l IH]; cbn [map forallb]; [reflexivity|]. rewrite IH. unfold mon_validb.
  cbn [map_mon m_min m_max m_species]. now rewrite memberb_h.
Qed.
Lemma mons_validb_h names count o : mons_validb (map h names) count (option_map (map_mons h) o) = mons_validb names count o.
Proof.
  unfold mons_validb. destruct o as [g|]; cbn [option_map map_mons listed rate m_list m_rate]; [|reflexivity].
  now rewrite mon_validb_h, map_length.
Qed.
Lemma enc_validb_h names e : enc_validb (map h names) (map_enc h e) = enc_validb names e.
Proof. unfold enc_validb. cbn [map_enc e_land e_water e_rock e_fish]. now rewrite !mons_validb_h. Qed.
End Rename.

Definition file_validb (names : list string) (l : list encounter) : bool :=
  forallb (enc_validb names) l && (N.of_nat (length l) <=? 65536).
Lemma file_validb_h names l : file_validb (map backwards names) (map (map_enc backwards) l) = file_validb names l.
Proof.
  unfold file_validb. rewrite map_length. f_equal. induction l as [|e l IH]; cbn [map forallb]; [reflexivity|].
  now rewrite IH, (enc_validb_h backwards backwards_inj).
Qed.
Lemma files_valid : forallb (file_validb species_names) [f_rs bundled_files; f_e bundled_files; f_frlg bundled_files] = true.
Proof.
  cbn [forallb]. rewrite <- (file_validb_h species_names (f_rs bundled_files)), <- (file_validb_h species_names (f_e bundled_files)),
    <- (file_validb_h species_names (f_frlg bundled_files)).
  rewrite back_names_ok. pose proof back_files_ok as B. unfold map_files in B.
  rewrite (f_equal f_rs B : map (map_enc backwards) (f_rs bundled_files) = f_rs back_files).
  rewrite (f_equal f_e B : map (map_enc backwards) (f_e bundled_files) = f_e back_files).
  rewrite (f_equal f_frlg B : map (map_enc backwards) (f_frlg bundled_files) = f_frlg back_files).
  vm_cast_no_check (eq_refl true).
Qed.
Lemma bundled_valid : N.of_nat (length species_names) <= 2048 /\
  forall game, In game gen3_games -> Forall (enc_valid species_names) (file_of bundled_files game) /\
    N.of_nat (length (file_of bundled_files game)) <= 65536.
Proof.
  split; [vm_compute; discriminate|]. intros game Hg.
  pose proof files_valid as F. rewrite forallb_forall in F.
  assert (Hf : In (file_of bundled_files game) [f_rs bundled_files; f_e bundled_files; f_frlg bundled_files]).
  { unfold file_of. destruct (game =? Game_EMERALD); [right; left; exact (eq_refl _)|].
    destruct ((game =? Game_RUBY) || (game =? Game_SAPPHIRE)); [left; exact (eq_refl _)|].
    right; right; left; exact (eq_refl _). }
  specialize (F _ Hf). unfold file_validb in F.
  apply andb_prop in F as [F1 F2]. split; [|now apply N.leb_le].
  apply Forall_forall. intros e He. rewrite forallb_forall in F1. apply enc_validb_ok. now apply F1.
Qed.

(** ** Route 117 *)
Definition hang_seed : N := 30.
Definition volbeat_check (table : list personal3) (r : res (list string * list area3)) : bool :=
  match r with
  | Ok (ns, areas) =>
      match nth_error ns 11, nth_error areas 11 with
      | Some n, Some a =>
          String.eqb n "Route 117" &&
          forallb (fun s => negb (species_of s =? 0)) (slots_of a Encounter_GRASS) &&
          match nth_error (slots_of a Encounter_GRASS)
            (N.to_nat (slot_one_early (cumulative_of Encounter_GRASS) (Z.of_N (rand_at hang_seed 1 mod 100)))) with
          | Some s => match nth_error table (N.to_nat (species_of s)) with
                      | Some i => (pi_gender_ratio i =? 0) | None => false end
          | None => false
          end
      | _, _ => false
      end
  | Raise _ => false
  end.
Lemma volbeat_checked : volbeat_check (t_e bundled_tables) (bundled Game_EMERALD) = true.
Proof. rewrite tables_ok, bundled_emerald. vm_cast_no_check (eq_refl true). Qed.

Lemma route_117 : exists ns areas area, bundled Game_EMERALD = Ok (ns, areas) /\
    nth_error ns 11 = Some "Route 117"%string /\ nth_error areas 11 = Some area /\
    let g := wild_new bundled_tables 1 Encounter_GRASS Lead_CUTE_CHARM_M Game_EMERALD 12345 54321 in
    Forall (fun s => species_of s <> 0) (slots_of area (w_encounter g)) /\
    forall fuel junk, length junk = 6%nat ->
    wild_generate fuel junk g hang_seed 0 0 1 area = Raise OutOfFuel.
Proof.
  assert (Hg : In Game_EMERALD gen3_games) by (right; right; left; exact (eq_refl _)).
  destruct (bundled_ok Game_EMERALD Hg) as (ns & areas & E & _).
  pose proof volbeat_checked as C. rewrite E in C. unfold volbeat_check in C.
  destruct (nth_error ns 11) as [n|] eqn:En; [|discriminate C].
  destruct (nth_error areas 11) as [a|] eqn:Ea; [|discriminate C].
  apply andb_prop in C as [C C3]. apply andb_prop in C as [C1 C2]. apply String.eqb_eq in C1. subst n.
  exists ns, areas, a. split; [exact E|]. split; [exact En|]. split; [exact Ea|]. intros g.
  split.
  - apply Forall_forall. intros s Hs. rewrite forallb_forall in C2. specialize (C2 s Hs).
    apply negb_true_iff in C2. now apply N.eqb_neq.
  - intros fuel junk Hj.
    destruct (nth_error (slots_of a Encounter_GRASS) _) as [s|] eqn:Es in C3; [|discriminate C3].
    destruct (nth_error (t_e bundled_tables) (N.to_nat (species_of s))) as [i|] eqn:Ei; [|discriminate C3].
    apply N.eqb_eq in C3.
    destruct (bundled_setting Game_EMERALD ns areas a Hg E (nth_error_In _ _ Ea) 1 Encounter_GRASS Lead_CUTE_CHARM_M 12345 54321) as [S _].
    apply (generate_hangs_slot fuel junk g hang_seed 0 0 1 a s i Hj S);
      [exact (eq_refl _)|exact (eq_refl _)|exact (eq_refl _)|exact (eq_refl _)|exact (eq_refl _)|exact Es|exact Ei|exact C3|].
    vm_compute. discriminate.
Qed.
