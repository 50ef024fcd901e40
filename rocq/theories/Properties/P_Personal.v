(** C54 and C55: personal records and tables. *)
From Coq Require Import NArith Arith String List Lia.
From Verif Require Import Base.Word Model.Personal Model.PersonalLayouts Model.PersonalData3
  Spec.PersonalSpec Proofs.PersonalProofs.
Import ListNotations.
Open Scope list_scope.
Open Scope N_scope.

(** C54. Every record type has its asserted size and distinct field names. The theorems
    below hold for every layout with distinct names, so for all of these. *)
Theorem C54_sizes :
  length record_types = 14%nat /\
  forall l size, In (l, size) record_types -> size_of l = size /\ NoDup (map fst l).
Proof.
  split; [reflexivity|]. intros l size H.
  exact (proj1 (Forall_forall _ _) record_types_ok (l, size) H).
Qed.
Print Assumptions C54_sizes.

(** The fields follow one another without gaps, and each byte belongs to one field. *)
Theorem C54_ranges : forall l,
  start l 0 = 0%nat /\ start l (length l) = size_of l /\
  (forall i name d, nth_error l i = Some (name, d) -> start l (S i) = (start l i + width d)%nat) /\
  (forall k, (k < size_of l)%nat -> exists! i, exists name d,
     nth_error l i = Some (name, d) /\ (start l i <= k < start l i + width d)%nat).
Proof.
  intros l. split; [reflexivity|]. split; [apply start_all|]. split; [exact (start_next l)|].
  intros k Hk. destruct (byte_field l k Hk) as (i & name & d & H1 & H2). exists i.
  split; [now exists name, d|]. intros j (n' & d' & H3 & H4).
  exact (byte_field_unique l k i j name d n' d' H1 H3 H2 H4).
Qed.
Print Assumptions C54_ranges.

(** A field is read from its own bytes only. *)
Theorem C54_field_is_local : forall l i name d r s, NoDup (map fst l) ->
  nth_error l i = Some (name, d) ->
  same_bytes r s (start l i) (start l i + width d) -> get_field l r name = get_field l s name.
Proof. exact field_local. Qed.
Print Assumptions C54_field_is_local.

(** Decoding a file made of encoded records, possibly followed by part of a record. *)
Theorem C54_decodes : forall l rs tail, NoDup (map fst l) -> (0 < size_of l)%nat ->
  Forall (fits_record l) rs -> (length tail < size_of l)%nat ->
  length (load_personal l (concat (map (encode_record l) rs) ++ tail)) = length rs /\
  forall n vs i name d v, nth_error rs n = Some vs -> nth_error l i = Some (name, d) ->
    nth_error vs i = Some v ->
    exists r, nth_error (load_personal l (concat (map (encode_record l) rs) ++ tail)) n = Some r /\
      get_field l r name = Ok v.
Proof.
  intros l rs tail ND Hs Hf Ht. rewrite (load_encoded l Hs rs tail Hf Ht).
  split; [apply map_length|]. intros n vs i name d v Hn Hl Hv.
  exists (encode_record l vs). split; [now apply map_nth_error|].
  rewrite <- (app_nil_r (encode_record l vs)).
  apply (get_field_encoded l vs i name d v [] ND); try assumption.
  exact (proj1 (Forall_forall _ _) Hf vs (nth_error_In _ _ Hn)).
Qed.
Print Assumptions C54_decodes.

(** The n-th record of a file is its n-th block of bytes. *)
Theorem C54_record_is_local : forall l b n, (0 < size_of l)%nat ->
  nth_error (load_personal l b) n
  = if (S n * size_of l <=? length b)%nat
    then Some (firstn (size_of l) (skipn (n * size_of l) b)) else None.
Proof. exact load_nth. Qed.
Print Assumptions C54_record_is_local.

(** The fields are where the games' files have them: base stats, types, yields, items, gender ratio,
    egg groups, growth and abilities of all fourteen record types, whatever the bytes. *)
Theorem C54_positions : map fst positions = map fst record_types /\
  forall l fields name o d r, In (l, fields) positions -> In (name, o, d) fields ->
  get_field l r name = Ok (VInt (number_at d o r)).
Proof. exact (conj eq_refl field_positions). Qed.
Print Assumptions C54_positions.

(** The bundled Emerald table: record 313 is Volbeat, male only. *)
Example C54_case :
  length (load_personal PersonalInfo3 personal_e_bytes) = 387%nat /\
  option_map (fun r => map (get_field PersonalInfo3 r)
      ["hp"; "speed"; "ev_yield"; "item_1"; "gender_ratio"; "ability_1"; "misc"; "nature"]%string)
    (nth_error (load_personal PersonalInfo3 personal_e_bytes) 313)
  = Some [Ok (VInt 65); Ok (VInt 85); Ok (VInt 64); Ok (VInt 0); Ok (VInt 0); Ok (VInt 35);
          Ok (VBytes [7; 0; 0]); Raise AttributeError] /\
  start PersonalInfo3 16 = 19%nat.
Proof. now vm_compute. Qed.
Example C54_case_fits : NoDup (map fst [("a", U8); ("b", U16); ("c", Bytes 2)]%string) /\
  fits_record [("a", U8); ("b", U16); ("c", Bytes 2)]%string [VInt 255; VInt 0x1234; VBytes [7; 8]] /\
  encode_record [("a", U8); ("b", U16); ("c", Bytes 2)]%string [VInt 255; VInt 0x1234; VBytes [7; 8]]
    = [255; 0x34; 0x12; 7; 8].
Proof.
  split; [repeat constructor; cbn; intuition discriminate|]. split; [|reflexivity].
  repeat constructor; cbn; lia.
Qed.

(** C55. What the code does, for every set of flags: the table of the first flag in
    [table_bits] that is set. *)
Theorem C55_info_table_actual : forall game,
  (forall t, get_info_table game = Ok t <->
     exists a b bit, table_bits = a ++ (bit, t) :: b /\ N.testbit game bit = true /\
       Forall (fun e => N.testbit game (fst e) = false) a) /\
  (get_info_table game = Raise NotImplementedError <->
     Forall (fun e => N.testbit game (fst e) = false) table_bits) /\
  (forall e, get_info_table game = Raise e -> e = NotImplementedError).
Proof.
  intros game. rewrite table_chain.
  destruct (find (fun bt => N.testbit game (fst bt)) table_bits) as [[bit t]|] eqn:E.
  - destruct (find_split_first _ _ _ E) as (a & b & -> & Hb & Ha). cbn [fst snd] in *.
    split; [|split].
    + intros u. split.
      * intros H. injection H as ->. now exists a, b, bit.
      * intros (a' & b' & bit' & Heq & Hb' & Ha'). f_equal.
        exact (first_unique game _ _ _ _ _ _ _ _ Heq Ha Hb Ha' Hb').
    + split; [discriminate|]. intros H. apply Forall_app in H as [_ H]. inversion H. cbn in *. congruence.
    + discriminate.
  - pose proof (find_none _ _ E) as Hn. split; [|split].
    + intros u. split; [discriminate|]. intros (a & b & bit & Heq & Hb & _).
      exfalso. specialize (Hn (bit, u)). rewrite Heq in Hn. cbn [fst] in Hn. rewrite Hn in Hb; [discriminate|].
      apply in_app_iff. right. now left.
    + split; [|reflexivity]. intros _. apply Forall_forall. exact Hn.
    + congruence.
Qed.
Print Assumptions C55_info_table_actual.

(** Missing from the claim: Platinum, HeartGold and SoulSilver. *)
Theorem C55_info_table_partial : forall game t, In (game, t) own_table ->
  t <> T_PT -> t <> T_HGSS -> get_info_table game = Ok t.
Proof.
  intros game t H. unfold own_table in H. cbn [In] in H.
  repeat destruct H as [H|H]; try (injection H as <- <-; intros; vm_compute; congruence); destruct H.
Qed.
Print Assumptions C55_info_table_partial.
(** [get_info_table_3] agrees for the generation 3 games, and never raises. *)
Theorem C55_info_table_3 : forall game, game < 32 -> game <> 0 ->
  get_info_table game = Ok (get_info_table_3_name game).
Proof.
  intros game H H0. unfold get_info_table, get_info_table_3_name. cbv zeta.
  destruct (negb (N.land game (N.lor RUBY SAPPHIRE) =? 0)) eqn:E1; [reflexivity|].
  destruct (negb (N.land game EMERALD =? 0)) eqn:E2; [reflexivity|].
  destruct (negb (N.land game FIRE_RED =? 0)) eqn:E3; [reflexivity|].
  destruct (negb (N.land game LEAF_GREEN =? 0)) eqn:E4; [reflexivity|].
  exfalso. apply H0. unfold RUBY, SAPPHIRE, EMERALD, FIRE_RED, LEAF_GREEN in *.
  rewrite has_two in E1. rewrite has_bit in E2, E3, E4. apply Bool.orb_false_iff in E1 as [E0 E1].
  apply N.bits_inj_0. intros k. destruct (N.lt_ge_cases k 5) as [Hk|Hk].
  - assert (k = 0 \/ k = 1 \/ k = 2 \/ k = 3 \/ k = 4) as [->|[->|[->|[->| ->]]]] by lia; assumption.
  - rewrite <- (N.mod_small game (2^5)) by exact H. now apply N.mod_pow2_bits_high.
Qed.
Print Assumptions C55_info_table_3.

(** Game.PLATINUM has the value of Game.DIAMOND, so Platinum gets the Diamond table. *)
Theorem C55_info_table_refuted :
  In (PLATINUM, T_PT) own_table /\ get_info_table PLATINUM = Ok T_DP /\
  In (HEART_GOLD, T_HGSS) own_table /\ get_info_table HEART_GOLD = Raise NotImplementedError.
Proof. repeat split; cbn; tauto. Qed.
Print Assumptions C55_info_table_refuted.
Example C55_case : map get_info_table [EMERALD; N.lor X SWORD; 0; ULTRA_MOON] =
  [Ok T_E; Ok T_XY; Raise NotImplementedError; Ok T_UU].
Proof. now vm_compute. Qed.
