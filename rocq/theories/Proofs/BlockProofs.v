(** The block that is hashed, and what it tells about the settings. *)
From Coq Require Import NArith List Bool Lia Arith.
From Verif Require Import Base.Word Base.WordLemmas Model.Util Model.SHA1 Model.SHA1Class Spec.SHA1Spec Spec.BlockSpec
  Proofs.UtilProofs Proofs.SHA1Rounds Proofs.SHA1Proofs Proofs.SHA1Session Proofs.SHA1Encode.
Import ListNotations.
Open Scope N_scope.
Ltac Zify.zify_post_hook ::= idtac.

Definition start (junk : list N) (s : setup) : sha1 * list N :=
  (sha1_new junk (version_value (s_version s)) (language_value (s_language s)) (console_value (s_console s))
     (s_mac s) (s_soft_reset s) (s_vframe s) (s_gx s), []).
Definition blk (s : setup) (d : date) (t : time) (tm : timer) (b : N) : list N :=
  block s (datew d) (timerw tm) (timew (s_console s) t) b.

Lemma object_holds junk s d t tm b : length junk = 80%nat -> valid_setup s ->
  valid_date d = true -> valid_time t = true -> valid_timer tm = true -> b < 2^32 ->
  let data := sha_data (fst (fst (sha_calls (start junk s) (map op_of [CDate d; CTime t; CTimer tm; CButton b])))) in
  firstn 16 data = blk s d t tm b.
Proof.
  intros J V Vd Vt Vtm Vb.
  pose proof (new_inv junk s J V) as I. fold (start junk s) in I. unfold sha_calls. cbn [map calls_with].
  destruct (start junk s) as [o0 a0]. clear J.
  pose proof (proj1 (date_step _ _ _ _ d I)) as I1. destruct (sha_call (o0, a0) (op_of (CDate d))) as [[o1 a1] r1]. cbn [fst] in I1.
  pose proof (proj1 (time_step _ _ _ _ t I1)) as I2. destruct (sha_call (o1, a1) (op_of (CTime t))) as [[o2 a2] r2]. cbn [fst] in I2.
  pose proof (proj1 (timer_step _ _ _ _ tm I2)) as I3. destruct (sha_call (o2, a2) (op_of (CTimer tm))) as [[o3 a3] r3]. cbn [fst] in I3.
  pose proof (proj1 (button_step _ _ _ _ b I3)) as I4. destruct (sha_call (o3, a3) (op_of (CButton b))) as [[o4 a4] r4]. cbn [fst] in I4.
  cbn [fst]. clear I I1 I2 I3. destruct I4 as [L _ F D T M B _]. cbn [fst] in *.
  cbn [learn k_date k_time k_timer k_button keep nothing_known] in *. unfold keep in *.
  apply N.ltb_lt in Vb. rewrite Vd in D. rewrite Vt in T. rewrite Vtm in M. rewrite Vb in B. apply N.ltb_lt in Vb.
  specialize (D _ eq_refl). specialize (T _ eq_refl). specialize (M _ eq_refl). specialize (B _ eq_refl).
  destruct D as [_ D], T as [_ T], M as [_ M], B as [_ B].
  assert (H : forall i, (i < 16)%nat -> aget (sha_data o4) i = nth i (blk s d t tm b) 0).
  { specialize (F (datew d) (timerw tm) (timew (s_console s) t) b (datew_word d Vd) (timerw_word tm Vtm) (timew_word _ t Vt) Vb).
    fold (blk s d t tm b) in F.
    assert (G : forall i, In i fixed -> (i < 16)%nat -> aget (sha_data o4) i = nth i (blk s d t tm b) 0).
    { intros i Hi Hl. rewrite (F i Hi). apply Wd_old; [apply block_length|exact Hl]. }
    intros i Hi. do 16 (destruct i as [|i]; [try (apply G; [unfold fixed; cbn; tauto|lia]);
      unfold blk; rewrite nth_block by lia; assumption|]). lia. }
  apply (nth_ext _ _ 0 0).
  - unfold blk. rewrite firstn_length, L, block_length. reflexivity.
  - rewrite firstn_length, L. intros i Hi. change (Nat.min 16 80) with 16%nat in Hi. rewrite <- H by exact Hi.
    unfold aget. rewrite <- (firstn_skipn 16 (sha_data o4)) at 2. rewrite app_nth1; [reflexivity|]. rewrite firstn_length, L. exact Hi.
Qed.

(** * The addresses *)
Definition all_versions := [Black; White; Black2; White2].
Definition all_languages := [English; French; German; Italian; Japanese; Korean; Spanish].
Definition all_consoles := [DSLite; DSi; DS3].
Definition plain v l c := {| s_version := v; s_language := l; s_console := c; s_mac := 0; s_soft_reset := false; s_vframe := 0; s_gx := 0 |}.
Definition all_plain : list setup :=
  flat_map (fun v => flat_map (fun l => map (plain v l) all_consoles) all_languages) all_versions.
Lemma all_plain_in v l c : In (plain v l c) all_plain.
Proof.
  unfold all_plain. apply in_flat_map. exists v. split; [destruct v; cbn; tauto|].
  apply in_flat_map. exists l. split; [destruct l; cbn; tauto|]. apply in_map. destruct c; cbn; tauto.
Qed.
Fixpoint eqb_list (a b : list N) : bool :=
  match a, b with
  | [], [] => true
  | x :: a, y :: b => (x =? y) && eqb_list a b
  | _, _ => false
  end.
Lemma eqb_list_ok a : forall b, eqb_list a b = true <-> a = b.
Proof.
  induction a as [|x a IH]; intros [|y b]; cbn; try easy. rewrite andb_true_iff, N.eqb_eq, IH. split; [now intros [-> ->]|intros E; now inversion E].
Qed.
Lemma memory_table :
  let l := map (fun s => (s, nazow s)) all_plain in
  forallb (fun p => forallb (fun p' => Bool.eqb (eqb_list (snd p) (snd p')) (same_memory (fst p) (fst p'))) l) l = true.
Proof. vm_compute. reflexivity. Qed.
Lemma memory_ok s s' : nazow s = nazow s' <-> same_memory s s' = true.
Proof.
  pose proof memory_table as H. cbv zeta in H. rewrite forallb_forall in H.
  assert (I : forall s, In (plain (s_version s) (s_language s) (s_console s), nazow s) (map (fun s => (s, nazow s)) all_plain)).
  { intros s0. change (nazow s0) with (nazow (plain (s_version s0) (s_language s0) (s_console s0))).
    apply (in_map (fun s => (s, nazow s))), all_plain_in. }
  specialize (H _ (I s)). rewrite forallb_forall in H. specialize (H _ (I s')). cbn [fst snd] in H. apply eqb_prop in H.
  change (same_memory (plain (s_version s) (s_language s) (s_console s)) (plain (s_version s') (s_language s') (s_console s')))
    with (same_memory s s') in H.
  rewrite <- eqb_list_ok, H. reflexivity.
Qed.

(** * The MAC address *)
Lemma nth_byte_lxor k a b : nth_byte k (N.lxor a b) = N.lxor (nth_byte k a) (nth_byte k b).
Proof.
  unfold nth_byte. apply N.bits_inj. intro i. change 256 with (2^8).
  destruct (N.ltb_spec i 8) as [H|H].
  - rewrite N.lxor_spec, !N.mod_pow2_bits_low, !N.div_pow2_bits, N.lxor_spec by exact H. reflexivity.
  - rewrite N.lxor_spec, !N.mod_pow2_bits_high by exact H. reflexivity.
Qed.
Definition frame_bits (s : setup) : N := s_vframe s * 2^40 + s_gx s * 2^16.
Lemma nth_byte_frame s : valid_setup s ->
  nth_byte 0 (frame_bits s) = 0 /\ nth_byte 1 (frame_bits s) = 0 /\ nth_byte 2 (frame_bits s) = s_gx s /\
  nth_byte 3 (frame_bits s) = 0 /\ nth_byte 4 (frame_bits s) = 0 /\ nth_byte 5 (frame_bits s) = s_vframe s.
Proof.
  intros (_ & V & G). unfold frame_bits, nth_byte. set (v := s_vframe s) in *. set (g := s_gx s) in *. clearbody v g.
  change (2 ^ (8 * 0)) with 1. change (2 ^ (8 * 1)) with 256. change (2 ^ (8 * 2)) with 65536.
  change (2 ^ (8 * 3)) with 16777216. change (2 ^ (8 * 4)) with 4294967296. change (2 ^ (8 * 5)) with 1099511627776.
  change (2^40) with 1099511627776. change (2^16) with 65536.
  assert (D : forall x q r m, x = m * q + r -> r < m -> x / m = q).
  { intros x q r m E R. symmetry. apply (N.div_unique _ _ _ r R). exact E. }
  assert (Mo : forall x q r, x = 256 * q + r -> r < 256 -> x mod 256 = r).
  { intros x q r E R. symmetry. apply (N.mod_unique _ _ q r R). exact E. }
  rewrite (D _ (v * 1099511627776 + g * 65536) 0 1) by lia.
  rewrite (D _ (v * 4294967296 + g * 256) 0 256) by lia.
  rewrite (D _ (v * 16777216 + g) 0 65536) by lia.
  rewrite (D _ (v * 65536) (g * 65536) 16777216) by lia.
  rewrite (D _ (v * 256) (g * 65536) 4294967296) by lia.
  rewrite (D _ v (g * 65536) 1099511627776) by lia.
  rewrite (Mo _ (v * 4294967296 + g * 256) 0) by lia.
  rewrite (Mo _ (v * 16777216 + g) 0) by lia.
  rewrite (Mo _ (v * 65536) g) by lia.
  rewrite (Mo _ (v * 256) 0) by lia.
  rewrite (Mo _ v 0) by lia. rewrite (Mo _ 0 v) by lia. repeat split.
Qed.
Lemma setup_bytes_seen s : valid_setup s ->
  setup_bytes s = [(if s_soft_reset s then 1 else 0); 0; nth_byte 1 (mac_seen s); nth_byte 0 (mac_seen s);
                   nth_byte 5 (mac_seen s); nth_byte 4 (mac_seen s); nth_byte 3 (mac_seen s); nth_byte 2 (mac_seen s)].
Proof.
  intros V. destruct (nth_byte_frame s V) as (B0 & B1 & B2 & B3 & B4 & B5). unfold setup_bytes, mac_seen.
  fold (frame_bits s). rewrite !nth_byte_lxor, B0, B1, B2, B3, B4, B5, !N.lxor_0_r. reflexivity.
Qed.
Lemma mac_seen_lt s : valid_setup s -> mac_seen s < 2^48.
Proof.
  intros (M & V & G). unfold mac_seen. apply (lxor_lt _ _ 48); [exact M|].
  change (2^48) with (256 * 1099511627776). change (2^40) with 1099511627776. change (2^16) with 65536. lia.
Qed.
Lemma six_bytes x y : x < 2^48 -> y < 2^48 -> (forall k, In k [0; 1; 2; 3; 4; 5] -> nth_byte k x = nth_byte k y) -> x = y.
Proof.
  intros X Y H. apply N.bits_inj. intro i. destruct (N.ltb_spec i 48) as [L|L].
  - assert (K : i / 8 < 6) by (apply N.div_lt_upper_bound; [discriminate|exact L]).
    assert (I : In (i / 8) [0; 1; 2; 3; 4; 5]).
    { set (q := i / 8) in *. clearbody q. clear - K. cbn [In]. lia. }
    specialize (H _ I). unfold nth_byte in H.
    assert (E : forall z, N.testbit z i = N.testbit (z / 2 ^ (8 * (i / 8)) mod 256) (i mod 8)).
    { intro z. change 256 with (2^8). rewrite N.mod_pow2_bits_low by (apply N.mod_lt; discriminate).
      rewrite N.div_pow2_bits. f_equal. rewrite N.add_comm. apply N.div_mod'. }
    rewrite (E x), (E y), H. reflexivity.
  - rewrite <- (N.mod_small x (2^48) X), <- (N.mod_small y (2^48) Y). rewrite !N.mod_pow2_bits_high by exact L. reflexivity.
Qed.
Lemma m67_ok s s' : valid_setup s -> valid_setup s' ->
  (m6 s = m6 s' /\ m7 s = m7 s') <-> (mac_seen s = mac_seen s' /\ s_soft_reset s = s_soft_reset s').
Proof.
  intros V V'. unfold m6, m7. rewrite (setup_bytes_seen s V), (setup_bytes_seen s' V'). cbn [firstn skipn]. split.
  - intros [E6 E7]. apply be4_inj in E6; try apply nth_byte_lt; try reflexivity; try (destruct (s_soft_reset s); reflexivity);
      try (destruct (s_soft_reset s'); reflexivity).
    apply be4_inj in E7; try apply nth_byte_lt. destruct E6 as (R & _ & E1 & E0), E7 as (E5 & E4 & E3 & E2). split.
    + apply six_bytes; try apply mac_seen_lt; try assumption. intros k Hk. cbn [In] in Hk.
      repeat (destruct Hk as [<-|Hk]; [assumption|]). destruct Hk.
    + destruct (s_soft_reset s), (s_soft_reset s'); try reflexivity; discriminate.
  - intros [E R]. rewrite E, R. split; reflexivity.
Qed.

(** * The clock *)
Lemma hour_table : forallb (fun h => forallb (fun h' =>
    Bool.eqb (bcd h + (if h <? 12 then 0 else 0x40) =? bcd h') ((h =? h') && (h <? 12))) (below 24)) (below 24) = true.
Proof. vm_compute. reflexivity. Qed.
Lemma hour_mixed h h' : h < 24 -> h' < 24 -> (bcd h + (if h <? 12 then 0 else 0x40) = bcd h' <-> h = h' /\ h < 12).
Proof.
  intros H H'. pose proof hour_table as T. rewrite forallb_forall in T. specialize (T h (in_below 24 h H)).
  rewrite forallb_forall in T. specialize (T h' (in_below 24 h' H')). apply eqb_prop in T.
  rewrite <- N.eqb_eq, T, andb_true_iff, N.eqb_eq, N.ltb_lt. reflexivity.
Qed.
Lemma clock_ok c c' t t' : plain_ds c = plain_ds c' -> valid_time t = true -> valid_time t' = true ->
  (timew c t = timew c' t' <-> t = t' /\ same_clock c c' t = true).
Proof.
  intros P V V'.
  assert (K : forall c, timew c t = timew c t' <-> t = t' /\ same_clock c c t = true).
  { intros c0. split; [|now intros [-> _]]. intros E. split; [now apply (time_inj c0)|]. unfold same_clock. now rewrite N.eqb_refl. }
  assert (M : forall t t', valid_time t = true -> valid_time t' = true ->
    timew DSi t = timew DS3 t' <-> t = t' /\ (let '(h, _, _) := t in h <? 12) = true).
  { clear. intros t t' V V'. destruct t as [[h mi] se], t' as [[h' mi'] se']. unfold valid_time in V, V'.
    rewrite !andb_true_iff, !N.ltb_lt in V, V'. destruct V as ((H & M) & S), V' as ((H' & M') & S').
    assert (m1 : mi < 100) by lia. assert (m2 : mi' < 100) by lia. assert (s1 : se < 100) by lia. assert (s2 : se' < 100) by lia.
    unfold timew, time_bytes. rewrite N.ltb_lt, N.add_0_r. split.
    - intros E. apply be4_inj in E; try apply (hour_lt DSi); try apply bcd_lt; try assumption; try reflexivity; [|lia].
      destruct E as (E1 & E2 & E3 & _). apply hour_mixed in E1; try assumption. destruct E1 as [-> L].
      apply bcd_inj in E2, E3; try assumption. subst. split; [reflexivity|exact L].
    - intros [E L]. inversion E; subst. apply N.ltb_lt in L. rewrite L, N.add_0_r. reflexivity. }
  destruct c, c'; try discriminate P; try apply K; unfold same_clock; cbn [plain_ds negb andb console_value N.eqb orb].
  - apply M; assumption.
  - split.
    + intros E. symmetry in E. apply M in E; try assumption. destruct E as [-> L]. split; [reflexivity|exact L].
    + intros [-> L]. symmetry. apply M; try assumption. split; [reflexivity|exact L].
Qed.

Lemma block_parts s d t tm b s' d' t' tm' b' :
  blk s d t tm b = blk s' d' t' tm' b' <->
  nazow s = nazow s' /\ timerw tm = timerw tm' /\ m6 s = m6 s' /\ m7 s = m7 s' /\ datew d = datew d' /\
  timew (s_console s) t = timew (s_console s') t' /\ b = b'.
Proof.
  unfold blk, block. split.
  - intros E.
    assert (A : forall (x x' y y' : list N), length x = length x' -> x ++ y = x' ++ y' -> x = x' /\ y = y').
    { clear. induction x as [|a x IH]; intros [|a' x'] y y' L E; try discriminate L; [now split|].
      cbn in E. injection E as -> E. injection L as L. destruct (IH _ _ _ L E) as [-> ->]. now split. }
    apply A in E; [|now rewrite !nazow_length]. destruct E as [E1 E2].
    injection E2 as E2 E3 E4 E5 E6 E7. repeat (split; [assumption|]). assumption.
  - intros (-> & -> & -> & -> & -> & -> & ->). reflexivity.
Qed.

Lemma same_block s d t tm b s' d' t' tm' b' : valid_setup s -> valid_setup s' ->
  valid_date d = true -> valid_time t = true -> valid_timer tm = true ->
  valid_date d' = true -> valid_time t' = true -> valid_timer tm' = true ->
  blk s d t tm b = blk s' d' t' tm' b' <-> same_settings s d t tm b s' d' t' tm' b'.
Proof.
  intros V V' Vd Vt Vm Vd' Vt' Vm'. rewrite block_parts, memory_ok. unfold same_settings.
  assert (P : same_memory s s' = true -> plain_ds (s_console s) = plain_ds (s_console s')).
  { intros H. unfold same_memory in H. cbv zeta in H. apply andb_true_iff in H. destruct H as [H _]. now apply eqb_prop. }
  split.
  - intros (H1 & H2 & H3 & H4 & H5 & H6 & H7). destruct (proj1 (m67_ok s s' V V') (conj H3 H4)) as [Em Er].
    apply (clock_ok _ _ _ _ (P H1) Vt Vt') in H6. destruct H6 as [Et Ec].
    apply timer_inj in H2; try assumption. apply date_inj in H5; try assumption.
    exact (conj H1 (conj Em (conj Er (conj H5 (conj Et (conj Ec (conj H2 H7))))))).
  - intros (H1 & H2 & H3 & -> & H5 & H6 & -> & ->). destruct (proj2 (m67_ok s s' V V') (conj H2 H3)) as [E6 E7].
    split; [exact H1|]. split; [reflexivity|]. split; [exact E6|]. split; [exact E7|]. split; [reflexivity|].
    split; [|reflexivity]. apply (clock_ok _ _ _ _ (P H1) Vt Vt'). now split.
Qed.

Lemma blocks_told junk junk' s d t tm b s' d' t' tm' b' : length junk = 80%nat -> length junk' = 80%nat ->
  valid_setup s -> valid_setup s' ->
  valid_date d = true -> valid_time t = true -> valid_timer tm = true -> b < 2^32 ->
  valid_date d' = true -> valid_time t' = true -> valid_timer tm' = true -> b' < 2^32 ->
  let words junk s d t tm b :=
    firstn 16 (sha_data (fst (fst (sha_calls (start junk s) (map op_of [CDate d; CTime t; CTimer tm; CButton b]))))) in
  words junk s d t tm b = words junk' s' d' t' tm' b' <-> same_settings s d t tm b s' d' t' tm' b'.
Proof.
  intros J J' V V' Vd Vt Vm Vb Vd' Vt' Vm' Vb' words. unfold words.
  rewrite (object_holds junk s d t tm b), (object_holds junk' s' d' t' tm' b') by assumption.
  apply same_block; assumption.
Qed.

(** Settings with the same block have the same seed. *)
Lemma same_seed s d t tm b s' d' t' tm' b' : valid_setup s -> valid_setup s' ->
  valid_date d = true -> valid_time t = true -> valid_timer tm = true -> b < 2^32 ->
  valid_date d' = true -> valid_time t' = true -> valid_timer tm' = true -> b' < 2^32 ->
  same_settings s d t tm b s' d' t' tm' b' -> initial_seed s d t tm b = initial_seed s' d' t' tm' b'.
Proof.
  intros V V' Vd Vt Vm Vb Vd' Vt' Vm' Vb' H. apply same_block in H; try assumption.
  unfold initial_seed, sha1_digest. rewrite !blocks_message by assumption.
  fold (blk s d t tm b). fold (blk s' d' t' tm' b'). rewrite H. reflexivity.
Qed.
