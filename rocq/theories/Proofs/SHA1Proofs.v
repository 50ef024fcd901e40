(** The words of the block, and sessions on one SHA1 object. *)
From Coq Require Import ZArith NArith List Bool Lia Arith.
From Verif Require Import Base.Word Base.WordLemmas Model.Util Model.Lcrng64 Model.LcrngClasses
  Model.SHA1 Model.SHA1Class Spec.SHA1Spec Proofs.UtilProofs Proofs.SHA1Rounds.
Import ListNotations.
Open Scope N_scope.
Ltac Zify.zify_post_hook ::= Z.div_mod_to_equations.

(** * Bytes *)
Lemma be4 v : be_bytes 4 v = [v / 256 / 256 / 256 mod 256; v / 256 / 256 mod 256; v / 256 mod 256; v mod 256].
Proof. reflexivity. Qed.
Lemma be2 v : be_bytes 2 v = [v / 256 mod 256; v mod 256].
Proof. reflexivity. Qed.
Lemma be_value4 a b c d : be_value [a; b; c; d] = ((a * 256 + b) * 256 + c) * 256 + d.
Proof. reflexivity. Qed.
Lemma be_roundtrip v : v < 4294967296 -> be_value (be_bytes 4 v) = v.
Proof. intros H. rewrite be4, be_value4. lia. Qed.
Lemma be_value4_word a b c d : a < 256 -> b < 256 -> c < 256 -> d < 256 -> be_value [a; b; c; d] < 4294967296.
Proof. intros. rewrite be_value4. lia. Qed.
Lemma le_timer t0 vc : t0 < 65536 -> vc < 65536 ->
  be_value (le_bytes 4 (vc * 65536 + t0)) = be_value (le_bytes 2 t0 ++ le_bytes 2 vc).
Proof.
  intros A B. unfold le_bytes. rewrite be4, !be2. cbn [rev app]. rewrite !be_value4.
  clear - A B. 
  replace ((vc * 65536 + t0) / 256 / 256 / 256) with (vc / 256) by lia.
  replace ((vc * 65536 + t0) / 256 / 256) with vc by lia.
  replace ((vc * 65536 + t0) / 256 mod 256) with (t0 / 256 mod 256) by lia.
  replace ((vc * 65536 + t0) mod 256) with (t0 mod 256) by lia. reflexivity.
Qed.
Lemma le8 a b : a < 4294967296 -> b < 4294967296 ->
  le_value (be_bytes 4 a ++ be_bytes 4 b) = be_value (le_bytes 4 b) * 4294967296 + be_value (le_bytes 4 a).
Proof.
  intros A B. unfold le_value, le_bytes. rewrite !be4. cbn [rev app be_value fold_left]. 
  unfold be_value. cbn [fold_left]. ring.
Qed.
Lemma le4_word v : be_value (le_bytes 4 v) < 4294967296.
Proof. unfold le_bytes. rewrite be4. cbn [rev app]. apply be_value4_word; apply N.mod_lt; discriminate. Qed.
Ltac Zify.zify_post_hook ::= idtac.


Lemma endian_le v : v < 2^32 -> change_endian_u32 v = be_value (le_bytes 4 v).
Proof.
  intros H. rewrite <- (be_roundtrip (change_endian_u32 v)) by apply endian_lt.
  unfold le_bytes. rewrite !be4. cbn [rev app].
  assert (B : forall x, x / 256 / 256 / 256 mod 256 = byte 3 x /\ x / 256 / 256 mod 256 = byte 2 x /\ x / 256 mod 256 = byte 1 x /\ x mod 256 = byte 0 x).
  { intro x. unfold byte. rewrite !N.div_div by discriminate. repeat split. rewrite N.div_1_r. reflexivity. }
  destruct (B v) as (-> & -> & -> & ->). destruct (B (change_endian_u32 v)) as (-> & -> & -> & ->).
  rewrite !endian_byte by (exact H || discriminate). reflexivity.
Qed.

Lemma lxor_digit x y a b : a < 256 -> b < 256 -> N.lxor (x * 256 + a) (y * 256 + b) = N.lxor x y * 256 + N.lxor a b.
Proof.
  intros A B. change 256 with (2^8). rewrite <- !lor_shiftl_add by (try assumption; apply (lxor_lt _ _ 8); assumption).
  apply N.bits_inj. intro n. rewrite !N.lxor_spec, !N.lor_spec, !shiftl_bits, !N.lxor_spec.
  destruct (N.leb_spec 8 n) as [I|I]; cbn [andb orb]; [|reflexivity].
  rewrite (bits_above_lt a 8 n), (bits_above_lt b 8 n) by assumption. now rewrite xorb_false_r, !orb_false_r.
Qed.
Lemma lxor_be4 a b c d a' b' c' d' : b < 256 -> c < 256 -> d < 256 -> b' < 256 -> c' < 256 -> d' < 256 ->
  N.lxor (be_value [a; b; c; d]) (be_value [a'; b'; c'; d']) = be_value [N.lxor a a'; N.lxor b b'; N.lxor c c'; N.lxor d d'].
Proof. intros. rewrite !be_value4, !lxor_digit by assumption. reflexivity. Qed.
Lemma lor_digit x a : a < 256 -> N.lor (N.shiftl x 8) a = x * 256 + a.
Proof. apply (lor_shiftl_add x 8 a). Qed.
Lemma lor4 a b c d : a < 256 -> b < 256 -> c < 256 -> d < 256 ->
  N.lor (N.lor (N.lor (shl32 a 24) (shl32 b 16)) (shl32 c 8)) d = be_value [a; b; c; d].
Proof.
  intros A B C D. unfold shl32.
  rewrite (w32_small (N.shiftl a 24)) by (rewrite N.shiftl_mul_pow2; change (2^24) with 16777216; clear - A; lia).
  rewrite (w32_small (N.shiftl b 16)) by (rewrite N.shiftl_mul_pow2; change (2^16) with 65536; clear - B; lia).
  rewrite (w32_small (N.shiftl c 8)) by (rewrite N.shiftl_mul_pow2; change (2^8) with 256; clear - C; lia).
  replace (N.shiftl a 24) with (N.shiftl (N.shiftl a 8) 16) by (rewrite N.shiftl_shiftl; reflexivity).
  rewrite <- N.shiftl_lor. rewrite (lor_digit a b) by exact B.
  replace (N.shiftl (a * 256 + b) 16) with (N.shiftl (N.shiftl (a * 256 + b) 8) 8) by (rewrite N.shiftl_shiftl; reflexivity).
  rewrite <- N.shiftl_lor. rewrite (lor_digit (a * 256 + b) c) by exact C. rewrite lor_digit by exact D. symmetry. apply be_value4.
Qed.

(** * BCD *)
Lemma bcd_at_ok i : i < 100 -> bcd_at i = Ok (bcd i) /\ bcd i < 256.
Proof.
  intros H. pose (P := fun i => match bcd_at i with Ok v => (v =? bcd i) && (bcd i <? 256) | _ => false end).
  assert (A : forallb P (map N.of_nat (seq 0 100)) = true) by now vm_compute.
  rewrite forallb_forall in A. specialize (A i).
  assert (J : In i (map N.of_nat (seq 0 100))).
  { apply in_map_iff. exists (N.to_nat i). split; [apply N2Nat.id|]. apply in_seq. clear - H. lia. }
  apply A in J. unfold P in J. destruct (bcd_at i); [|discriminate].
  apply andb_true_iff in J. destruct J as [J1 J2]. apply N.eqb_eq in J1. apply N.ltb_lt in J2. now subst.
Qed.

(** * The words *)
Definition datew (d : date) : N := be_value (date_bytes d).
Definition timew (c : console) (t : time) : N := be_value (time_bytes c t).
Definition timerw (t : timer) : N := be_value (timer_bytes t).
Definition m6 (s : setup) : N := be_value (firstn 4 (setup_bytes s)).
Definition m7 (s : setup) : N := be_value (skipn 4 (setup_bytes s)).
Definition nazow (s : setup) : list N :=
  map (fun a => be_value (le_bytes 4 a)) (addresses (s_version s) (s_language s) (s_console s)).
Definition block (s : setup) (dw tmw tw bw : N) : list N :=
  nazow s ++ [tmw; m6 s; m7 s; dw; tw; 0; 0; bw; 0x80000000; 0; 0x1A0].

Lemma nazow_length s : length (nazow s) = 5%nat.
Proof. unfold nazow, addresses. rewrite map_length. destruct (s_version s), (bw2_first (s_language s) false), (bw2_first (s_language s) true); reflexivity. Qed.
Lemma nazo_ok s : get_nazo (version_value (s_version s)) (language_value (s_language s)) (console_value (s_console s)) = nazow s.
Proof. unfold nazow. destruct (s_version s), (s_language s), (s_console s); now vm_compute. Qed.
Lemma nazo_other version language ds_type :
  (forall v, version <> version_value v) \/ (forall l, language <> language_value l) ->
  get_nazo version language ds_type = [0; 0; 0; 0; 0].
Proof.
  unfold get_nazo. intros [H|H].
  - pose proof (proj2 (N.eqb_neq _ _) (H Black)) as H1. pose proof (proj2 (N.eqb_neq _ _) (H White)) as H2.
    pose proof (proj2 (N.eqb_neq _ _) (H Black2)) as H3. pose proof (proj2 (N.eqb_neq _ _) (H White2)) as H4.
    change (version =? G_BLACK = false) in H1. change (version =? G_WHITE = false) in H2.
    change (version =? G_BLACK2 = false) in H3. change (version =? G_WHITE2 = false) in H4.
    rewrite H1, H2, H3, H4, !andb_false_r. exact eq_refl.
  - pose proof (proj2 (N.eqb_neq _ _) (H English)) as H1. pose proof (proj2 (N.eqb_neq _ _) (H Japanese)) as H2.
    pose proof (proj2 (N.eqb_neq _ _) (H German)) as H3. pose proof (proj2 (N.eqb_neq _ _) (H Spanish)) as H4.
    pose proof (proj2 (N.eqb_neq _ _) (H French)) as H5. pose proof (proj2 (N.eqb_neq _ _) (H Italian)) as H6.
    pose proof (proj2 (N.eqb_neq _ _) (H Korean)) as H7.
    change (language =? L_ENGLISH = false) in H1. change (language =? L_JAPANESE = false) in H2.
    change (language =? L_GERMAN = false) in H3. change (language =? L_SPANISH = false) in H4.
    change (language =? L_FRENCH = false) in H5. change (language =? L_ITALIAN = false) in H6.
    change (language =? L_KOREAN = false) in H7.
    rewrite H1, H2, H3, H4, H5, H6, H7, !andb_false_l. exact eq_refl.
Qed.
Lemma nazow_word s : Forall word (nazow s).
Proof. unfold nazow. apply Forall_forall. intros x X. apply in_map_iff in X. destruct X as [a [<- _]]. apply le4_word. Qed.

Lemma nth_byte_lt k v : nth_byte k v < 256.
Proof. apply N.mod_lt. discriminate. Qed.
Lemma lxor_byte a b : a < 256 -> b < 256 -> N.lxor a b < 256.
Proof. apply (lxor_lt a b 8). Qed.
Lemma m6_ok s : s_mac s < 2^48 ->
  (if s_soft_reset s then N.lxor (w32 (N.land (s_mac s) 0xFFFF)) 0x1000000 else w32 (N.land (s_mac s) 0xFFFF)) = m6 s.
Proof.
  intros H. unfold m6, setup_bytes. cbn [firstn].
  assert (E : w32 (N.land (s_mac s) 0xFFFF) = be_value [0; 0; nth_byte 1 (s_mac s); nth_byte 0 (s_mac s)]).
  { change 0xFFFF with (N.ones 16). rewrite N.land_ones. unfold nth_byte, w32. rewrite be_value4.
    rewrite N.mod_small by (eapply N.lt_trans; [apply N.mod_lt; discriminate|reflexivity]).
    change (2^(8*0)) with 1. rewrite N.div_1_r. change (2^(8*1)) with 256. change (2^16) with (256 * 256).
    rewrite N.mod_mul_r by discriminate. lia. }
  rewrite E. destruct (s_soft_reset s); [|reflexivity].
  change 0x1000000 with (be_value [1; 0; 0; 0]). rewrite lxor_be4 by (try reflexivity; apply nth_byte_lt).
  now rewrite !N.lxor_0_r.
Qed.
Lemma m7_ok s : valid_setup s ->
  N.lxor (N.lxor (w32 (N.shiftr (s_mac s) 16)) (shl32 (s_vframe s) 24)) (s_gx s) = m7 s.
Proof.
  intros (M & V & G). unfold m7, setup_bytes. cbn [skipn].
  assert (E : w32 (N.shiftr (s_mac s) 16) = be_value [nth_byte 5 (s_mac s); nth_byte 4 (s_mac s); nth_byte 3 (s_mac s); nth_byte 2 (s_mac s)]).
  { rewrite <- (be_roundtrip (w32 _)) by apply w32_lt. rewrite be4. f_equal.
    rewrite N.shiftr_div_pow2. unfold nth_byte.
    assert (Q : forall k, k < 4 -> w32 (s_mac s / 2^16) / 2^(8*k) mod 256 = s_mac s / 2^(8*(k+2)) mod 256).
    { intros k K. change 256 with (2^8). apply N.bits_inj. intro n.
      destruct (N.lt_ge_cases n 8) as [I|I].
      - rewrite !N.mod_pow2_bits_low by exact I. rewrite <- !N.shiftr_div_pow2, !shiftr_bits, w32_bits, shiftr_bits.
        destruct (N.ltb_spec (n + 8 * k) 32) as [J|J]; [|clear - I K J; lia]. cbn [andb]. f_equal. clear. lia.
      - now rewrite !N.mod_pow2_bits_high by exact I. }
    pose proof (Q 0 eq_refl) as Q0. pose proof (Q 1 eq_refl) as Q1. pose proof (Q 2 eq_refl) as Q2. pose proof (Q 3 eq_refl) as Q3. clear Q.
    change (2^(8*0)) with 1 in Q0. rewrite N.div_1_r in Q0.
    assert (P3 : w32 (s_mac s / 2^16) / 256 / 256 / 256 mod 256 = s_mac s / 2^(8*5) mod 256) by (rewrite !N.div_div by discriminate; exact Q3).
    assert (P2 : w32 (s_mac s / 2^16) / 256 / 256 mod 256 = s_mac s / 2^(8*4) mod 256) by (rewrite !N.div_div by discriminate; exact Q2).
    rewrite P3, P2. f_equal. f_equal. apply (f_equal2 (fun a b => [a; b])); [exact Q1|exact Q0]. }
  rewrite E.
  assert (E2 : shl32 (s_vframe s) 24 = be_value [s_vframe s; 0; 0; 0]).
  { unfold shl32. rewrite N.shiftl_mul_pow2, be_value4. change (2^24) with 16777216. rewrite w32_small; clear - V; lia. }
  assert (E3 : s_gx s = be_value [0; 0; 0; s_gx s]) by reflexivity.
  rewrite E2. rewrite E3 at 1. rewrite !lxor_be4 by (try reflexivity; try apply nth_byte_lt; try assumption; apply lxor_byte; try apply nth_byte_lt; reflexivity).
  now rewrite !N.lxor_0_r.
Qed.
