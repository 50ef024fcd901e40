(** Sessions on one SHA1 object. *)
From Coq Require Import NArith List Bool Lia Arith.
From Verif Require Import Base.Word Base.WordLemmas Model.Util Model.Lcrng64 Model.LcrngClasses
  Model.SHA1 Model.SHA1Class Spec.SHA1Spec Proofs.UtilProofs Proofs.SHA1Rounds Proofs.SHA1Proofs.
Import ListNotations.
Open Scope N_scope.
Ltac Zify.zify_post_hook ::= idtac.

(** * The setters *)
Lemma set_date_ok self y mo da dow : valid_date (y, mo, da, dow) = true ->
  sha1_set_date self y mo da dow = Ok (mk_sha1 (dset (sha_data self) 8 (datew (y, mo, da, dow))) (sha_ds_type self)).
Proof.
  intros V. unfold valid_date in V. rewrite !andb_true_iff, N.leb_le, !N.ltb_lt in V.
  destruct V as ((((Y1 & Y2) & M) & D) & W). unfold sha1_set_date.
  assert (EY : w16 (w16 y + (65536 - 2000)) = y - 2000).
  { rewrite (w16_small y) by (clear - Y2; lia). replace (y + (65536 - 2000)) with (y - 2000 + 1 * 65536) by (clear - Y1; lia).
    unfold w16. rewrite N.mod_add by discriminate. apply N.mod_small. clear - Y2; lia. }
  rewrite EY, (w8_small mo), (w8_small da), (w8_small dow) by (clear - M D W; lia).
  destruct (bcd_at_ok (y - 2000)) as [-> B1]; [clear - Y1 Y2; lia|].
  destruct (bcd_at_ok mo M) as [-> B2]. destruct (bcd_at_ok da D) as [-> B3]. cbn [rbind].
  rewrite lor4 by assumption. reflexivity.
Qed.
Lemma bcd_hour h : h < 24 -> bcd h + 0x40 < 256.
Proof.
  intros H. unfold bcd.
  assert (h / 10 <= 2) by (assert (h / 10 < 3); [apply N.div_lt_upper_bound; [discriminate|clear - H; lia]|lia]).
  assert (h mod 10 < 10) by (apply N.mod_lt; discriminate). lia.
Qed.
Lemma set_time_ok self c h mi s : sha_ds_type self = console_value c -> valid_time (h, mi, s) = true ->
  sha1_set_time self h mi s = Ok (mk_sha1 (dset (sha_data self) 9 (timew c (h, mi, s))) (sha_ds_type self)).
Proof.
  intros C V. unfold valid_time in V. rewrite !andb_true_iff, !N.ltb_lt in V.
  destruct V as ((H & M) & S). unfold sha1_set_time.
  rewrite (w8_small h), (w8_small mi), (w8_small s) by (clear - H M S; lia).
  pose proof (bcd_hour h H) as BH.
  destruct (bcd_at_ok h) as [-> B1]; [clear - H; lia|].
  destruct (bcd_at_ok mi) as [-> B2]; [clear - M; lia|]. destruct (bcd_at_ok s) as [-> B3]; [clear - S; lia|]. cbn [rbind].
  f_equal. f_equal. f_equal. rewrite <- (N.lor_0_r (N.lor (N.lor _ _) _)). cbv zeta.
  assert (E : (if (12 <=? h) && negb (sha_ds_type self =? DS_DS3) then 0x40 else 0) =
              match c with DS3 => 0 | _ => if h <? 12 then 0 else 0x40 end).
  { rewrite C. rewrite N.leb_antisym. destruct c, (h <? 12); reflexivity. }
  rewrite E. unfold timew, time_bytes.
  assert (L : bcd h + match c with DS3 => 0 | _ => if h <? 12 then 0 else 0x40 end < 256).
  { destruct c; try destruct (h <? 12); clear - BH B1; lia. }
  rewrite w32_small by (clear - L; lia). apply lor4; assumption || reflexivity.
Qed.
Lemma set_timer_ok self t0 vc : valid_timer (t0, vc) = true ->
  sha1_set_timer0 self t0 vc = mk_sha1 (dset (sha_data self) 5 (timerw (t0, vc))) (sha_ds_type self).
Proof.
  intros V. unfold valid_timer in V. rewrite !andb_true_iff, !N.ltb_lt in V. destruct V as [T V].
  unfold sha1_set_timer0. f_equal. f_equal.
  rewrite (w32_small vc), (w32_small t0) by (eapply N.lt_trans; [eassumption|reflexivity]).
  unfold shl32. rewrite w32_small by (rewrite N.shiftl_mul_pow2; change (2^16) with 65536 in *; clear - V; lia).
  rewrite lor_shiftl_add by exact T. rewrite endian_le by (change (2^16) with 65536 in *; change (2^32) with 4294967296; clear - T V; lia).
  unfold timerw, timer_bytes. apply le_timer; assumption.
Qed.

(** * The message is one block *)
Lemma blocks_52 b0 b1 b2 b3 b4 b5 b6 b7 b8 b9 b10 b11 b12 b13 b14 b15 b16 b17 b18 b19 b20 b21 b22 b23 b24 b25
  b26 b27 b28 b29 b30 b31 b32 b33 b34 b35 b36 b37 b38 b39 b40 b41 b42 b43 b44 b45 b46 b47 b48 b49 b50 b51 :
  blocks [b0; b1; b2; b3; b4; b5; b6; b7; b8; b9; b10; b11; b12; b13; b14; b15; b16; b17; b18; b19; b20; b21; b22; b23; b24; b25;
    b26; b27; b28; b29; b30; b31; b32; b33; b34; b35; b36; b37; b38; b39; b40; b41; b42; b43; b44; b45; b46; b47; b48; b49; b50; b51]
  = [[be_value [b0; b1; b2; b3]; be_value [b4; b5; b6; b7]; be_value [b8; b9; b10; b11]; be_value [b12; b13; b14; b15];
      be_value [b16; b17; b18; b19]; be_value [b20; b21; b22; b23]; be_value [b24; b25; b26; b27]; be_value [b28; b29; b30; b31];
      be_value [b32; b33; b34; b35]; be_value [b36; b37; b38; b39]; be_value [b40; b41; b42; b43]; be_value [b44; b45; b46; b47];
      be_value [b48; b49; b50; b51]; 0x80000000; 0; 0x1A0]].
Proof.
  unfold blocks.
  match goal with |- context[pad ?m] => assert (P : pad m = m ++ [0x80; 0; 0; 0; 0; 0; 0; 0; 0; 0; 1; 0xA0]) by reflexivity; rewrite P; clear P end.
  cbv [app length chunks firstn skipn map]. reflexivity.
Qed.
Lemma blocks_message s d t tm b : b < 2^32 ->
  blocks (message s d t tm b) = [block s (datew d) (timerw tm) (timew (s_console s) t) b].
Proof.
  intros B. unfold message.
  assert (N5 : exists x0 x1 x2 x3 x4, addresses (s_version s) (s_language s) (s_console s) = [x0; x1; x2; x3; x4]).
  { unfold addresses. destruct (s_version s), (bw2_first (s_language s) false), (bw2_first (s_language s) true); do 5 eexists; reflexivity. }
  destruct N5 as (x0 & x1 & x2 & x3 & x4 & N5).
  unfold block, nazow. rewrite N5. rewrite <- (be_roundtrip b B) at 2.
  destruct d as [[[y mo] da] dow], t as [[h mi] se], tm as [t0 vc].
  unfold le_bytes, timer_bytes, setup_bytes, date_bytes, time_bytes, datew, timew, timerw, m6, m7.
  unfold timer_bytes, setup_bytes, date_bytes, time_bytes, le_bytes. cbn [flat_map].
  rewrite !be4, !be2. cbn [rev app repeat firstn skipn map].
  rewrite blocks_52. reflexivity.
Qed.

Lemma rounds_split W s : fold_left (round W) (seq 0 80) s = fold_left (round W) (seq 9 71) (fold_left (round W) (seq 0 9) s).
Proof. rewrite <- fold_left_app. f_equal. Qed.

Section Blk.
Variables (s : setup) (dw tmw tw bw : N).
Hypothesis Hd : word dw. Hypothesis Htm : word tmw. Hypothesis Ht : word tw. Hypothesis Hb : word bw.
Lemma block_length : length (block s dw tmw tw bw) = 16%nat.
Proof. unfold block. rewrite app_length, nazow_length. reflexivity. Qed.
Lemma setup_byte_lt : valid_setup s -> Forall (fun b => b < 256) (setup_bytes s).
Proof.
  intros (M & V & G). unfold setup_bytes. repeat constructor; try apply nth_byte_lt; try (destruct (s_soft_reset s); reflexivity); apply lxor_byte; try assumption; apply nth_byte_lt.
Qed.
Lemma m6_word : valid_setup s -> word (m6 s).
Proof.
  intros V. apply setup_byte_lt in V. unfold m6, setup_bytes in *. cbn [firstn].
  repeat match goal with H : Forall _ (_ :: _) |- _ => apply Forall_cons_iff in H; destruct H as [? H] end.
  apply be_value4_word; assumption.
Qed.
Lemma m7_word : valid_setup s -> word (m7 s).
Proof.
  intros V. apply setup_byte_lt in V. unfold m7, setup_bytes in *. cbn [skipn].
  repeat match goal with H : Forall _ (_ :: _) |- _ => apply Forall_cons_iff in H; destruct H as [? H] end.
  apply be_value4_word; assumption.
Qed.
Lemma block_word : valid_setup s -> Forall word (block s dw tmw tw bw).
Proof.
  intros V. unfold block. apply Forall_app. split; [apply nazow_word|].
  pose proof (m6_word V). pose proof (m7_word V).
  repeat constructor; try assumption; try reflexivity.
Qed.
End Blk.

(** * What is left alone *)
Definition frame (l : list nat) (data data' : list N) : Prop :=
  length data' = length data /\ forall i, ~ In i l -> aget data' i = aget data i.
Lemma frame_trans l a b c : frame l a b -> frame l b c -> frame l a c.
Proof. intros [L1 F1] [L2 F2]. split; [congruence|]. intros i I. rewrite F2, F1 by exact I. reflexivity. Qed.
Lemma frame_dset data i v : frame [i] data (dset data i v).
Proof. split; [apply dset_length|]. intros j J. apply aget_aset_ne. intros ->. apply J. now left. Qed.
Lemma frame_weaken l l' a b : incl l l' -> frame l a b -> frame l' a b.
Proof. intros I [L F]. split; [exact L|]. intros i J. apply F. intro K. apply J, I, K. Qed.
Lemma frame_refl l a : frame l a a.
Proof. split; reflexivity. Qed.
Lemma frame_calc_ws l : forall data, frame l data (fold_left calc_w l data).
Proof.
  induction l as [|i l IH]; intro data; [apply frame_refl|]. cbn [fold_left].
  apply (frame_trans _ _ (calc_w data i)).
  - apply (frame_weaken [i]); [|apply frame_dset]. intros j [<-|[]]. now left.
  - apply (frame_weaken l); [|apply IH]. intros j J. now right.
Qed.
Lemma frame_simd data : frame (seq 32 48) data (for_range 48 32 (fun i data => calc_w_simd data i) data).
Proof.
  apply (for_range_inv (fun i d => frame (seq 32 48) data d)); [apply frame_refl|].
  intros i d Hi F. apply (frame_trans _ _ d); [exact F|].
  apply (frame_weaken [i]); [|apply frame_dset]. intros j [<-|[]]. apply in_seq. lia.
Qed.
Definition disjoint (I l : list nat) : bool := forallb (fun j => negb (existsb (Nat.eqb j) l)) I.
Lemma disjoint_notin I l j : disjoint I l = true -> In j I -> ~ In j l.
Proof.
  intros H J K. unfold disjoint in H. rewrite forallb_forall in H. specialize (H j J).
  apply negb_true_iff in H. assert (existsb (Nat.eqb j) l = true); [|congruence].
  apply existsb_exists. exists j. split; [exact K|apply Nat.eqb_refl].
Qed.
Lemma holds_frame blk l a b I : disjoint I l = true -> frame l a b -> holds blk a I -> holds blk b I.
Proof. intros D [_ F] H j J. rewrite F by (eapply disjoint_notin; eassumption). apply H, J. Qed.
Lemma holds_app blk a I J : holds blk a I -> holds blk a J -> holds blk a (I ++ J).
Proof. intros A B j K. apply in_app_iff in K. destruct K; auto. Qed.
Lemma holds_sub blk a I J : has I J = true -> holds blk a I -> holds blk a J.
Proof. intros H A j K. apply A. eapply has_in; eassumption. Qed.

(** * The invariant of a session *)
Definition fixed : list nat := [0; 1; 2; 3; 4; 6; 7; 10; 11; 13; 14; 15; 18]%nat.
Definition pre : list nat := [16; 19; 21; 22; 24; 27; 30]%nat.
Definition post : list nat := [17; 20; 23; 25; 26; 28; 29; 31]%nat.

Definition init_vars : vars := H0.
Definition alpha_of (W : list N) : list N :=
  let '(a, b, c, d, e) := fold_left (round W) (seq 0 9) H0 in [a; b; c; d; e].

Record inv (s : setup) (k : known) (st : sha1 * list N) : Prop := {
  i_length : length (sha_data (fst st)) = 80%nat;
  i_ds : sha_ds_type (fst st) = console_value (s_console s);
  i_fixed : forall dw tmw tw bw, word dw -> word tmw -> word tw -> word bw ->
    holds (block s dw tmw tw bw) (sha_data (fst st)) fixed;
  i_date : forall d, k_date k = Some d -> valid_date d = true /\ aget (sha_data (fst st)) 8 = datew d;
  i_time : forall t, k_time k = Some t -> valid_time t = true /\ aget (sha_data (fst st)) 9 = timew (s_console s) t;
  i_timer : forall t, k_timer k = Some t -> valid_timer t = true /\ aget (sha_data (fst st)) 5 = timerw t;
  i_button : forall b, k_button k = Some b -> b < 2^32 /\ aget (sha_data (fst st)) 12 = b;
  i_fresh : k_fresh k = true -> exists d tm, k_date k = Some d /\ k_timer k = Some tm /\
    forall tw bw, word tw -> word bw ->
      holds (block s (datew d) (timerw tm) tw bw) (sha_data (fst st)) pre /\
      snd st = alpha_of (schedule (block s (datew d) (timerw tm) tw bw)) }.

Lemma bcd_lt v : v < 100 -> bcd v < 256.
Proof. intros H. apply (bcd_at_ok v H). Qed.
Lemma datew_word d : valid_date d = true -> word (datew d).
Proof.
  destruct d as [[[y mo] da] dow]. intros V. unfold valid_date in V. rewrite !andb_true_iff, N.leb_le, !N.ltb_lt in V.
  destruct V as ((((Y1 & Y2) & M) & D) & W). apply be_value4_word; try apply bcd_lt; try assumption. lia.
Qed.
Lemma timew_word c t : valid_time t = true -> word (timew c t).
Proof.
  destruct t as [[h mi] se]. intros V. unfold valid_time in V. rewrite !andb_true_iff, !N.ltb_lt in V.
  destruct V as ((H & M) & S). pose proof (bcd_hour h H). apply be_value4_word; [|apply bcd_lt; lia|apply bcd_lt; lia|reflexivity].
  destruct c; try destruct (h <? 12); lia.
Qed.
Lemma timerw_word t : valid_timer t = true -> word (timerw t).
Proof.
  destruct t as [t0 vc]. intros V. unfold timerw, timer_bytes, le_bytes. rewrite !be2. cbn [rev app].
  apply be_value4_word; apply N.mod_lt; discriminate.
Qed.

Lemma nth_block s dw tmw tw bw i : (5 <= i)%nat ->
  nth i (block s dw tmw tw bw) 0 = nth (i - 5) [tmw; m6 s; m7 s; dw; tw; 0; 0; bw; 0x80000000; 0; 0x1A0] 0.
Proof. intros H. unfold block. rewrite app_nth2; rewrite nazow_length; [reflexivity|exact H]. Qed.
Lemma nth_block_nazo s dw tmw tw bw i : (i < 5)%nat -> nth i (block s dw tmw tw bw) 0 = nth i (nazow s) 0.
Proof. intros H. unfold block. apply app_nth1. now rewrite nazow_length. Qed.
Lemma Wd_blk s dw tmw tw bw i : (5 <= i < 16)%nat ->
  Wd (block s dw tmw tw bw) i = nth (i - 5) [tmw; m6 s; m7 s; dw; tw; 0; 0; bw; 0x80000000; 0; 0x1A0] 0.
Proof. intros H. rewrite Wd_old by (try apply block_length; lia). apply nth_block. lia. Qed.

(** ** construction *)
Lemma dset5 junk l : length junk = 80%nat -> length l = 5%nat ->
  let d := for_range 5 0 (fun i data => dset data i (aget l i)) junk in
  length d = 80%nat /\ forall i, (i < 5)%nat -> aget d i = w32 (aget l i).
Proof.
  intros J L d. unfold d.
  apply (for_range_inv (fun n d => length d = 80%nat /\ forall i, (i < n)%nat -> aget d i = w32 (aget l i))).
  - split; [exact J|]. lia.
  - intros n a Hn [La Ha]. split; [now rewrite dset_length|].
    intros i Hi. unfold dset. destruct (Nat.eq_dec n i) as [->|Ne].
    + apply aget_aset_eq. lia.
    + rewrite aget_aset_ne by exact Ne. apply Ha. lia.
Qed.
Ltac dget_simp := unfold dset, dget; repeat first [rewrite aget_aset_eq by (rewrite ?aset_length; lia)|rewrite aget_aset_ne by discriminate].

Lemma new_inv junk s : length junk = 80%nat -> valid_setup s ->
  inv s nothing_known
    (sha1_new junk (version_value (s_version s)) (language_value (s_language s)) (console_value (s_console s))
       (s_mac s) (s_soft_reset s) (s_vframe s) (s_gx s), []).
Proof.
  intros J V. pose proof V as (VM & VV & VG). unfold sha1_new. rewrite nazo_ok.
  rewrite (w64_small (s_mac s)) by (eapply N.lt_trans; [exact VM|reflexivity]).
  rewrite (w8_small (s_vframe s)) by exact VV. rewrite (w8_small (s_gx s)) by exact VG.
  destruct (dset5 junk (nazow s) J (nazow_length s)) as [L5 D5].
  set (d5 := for_range 5 0 _ junk) in *. clearbody d5.
  set (d6 := if s_soft_reset s then _ else _).
  assert (L6 : length d6 = 80%nat) by (unfold d6; destruct (s_soft_reset s); rewrite ?dset_length; exact L5).
  assert (D6 : aget d6 6 = m6 s).
  { rewrite <- (m6_ok s VM). unfold d6. destruct (s_soft_reset s).
    - unfold dset, dget. rewrite aget_aset_eq by (rewrite aset_length; lia). rewrite aget_aset_eq by lia.
      apply w32_small. apply (lxor_lt _ _ 32); [apply w32_lt|reflexivity].
    - unfold dset. apply aget_aset_eq. lia. }
  assert (N6 : forall i, (i < 5)%nat -> aget d6 i = aget (nazow s) i).
  { intros i Hi. assert (Ne : 6%nat <> i) by lia. unfold d6, dset, dget.
    assert (W : w32 (aget (nazow s) i) = aget (nazow s) i) by (apply w32_small; apply (nth_word (nazow s) i (nazow_word s))).
    destruct (s_soft_reset s); rewrite ?aget_aset_ne by exact Ne; rewrite D5 by exact Hi; exact W. }
  clearbody d6. rewrite (m7_ok s V). pose proof (m7_word s V) as M7.
  cbn [nothing_known]. split; cbn [fst snd sha_data sha_ds_type k_date k_time k_timer k_button k_fresh nothing_known]; try discriminate.
  - rewrite !dset_length. exact L6.
  - destruct (s_console s); reflexivity.
  - intros dw tmw tw bw HW1 HW2 HW3 HW4 j H.
    assert (B : Forall word (block s dw tmw tw bw)) by (apply block_word; assumption).
    assert (Nz : forall i, (i < 5)%nat -> Wd (block s dw tmw tw bw) i = aget (nazow s) i).
    { intros i Hi. rewrite Wd_old by (apply block_length || lia). apply nth_block_nazo, Hi. }
    cbn [In fixed] in H.
    repeat (destruct H as [<-|H]); [..|destruct H].
    all: try (rewrite Nz by lia; dget_simp; apply N6; lia).
    all: try (rewrite Wd_blk by lia; cbn [nth Nat.sub]; dget_simp; exact D6).
    all: try (rewrite Wd_blk by lia; cbn [nth Nat.sub]; dget_simp; apply w32_small; exact M7).
    all: try (rewrite Wd_blk by lia; cbn [nth Nat.sub]; dget_simp; reflexivity).
    rewrite Wd_rotl by (try exact B; try apply block_length; lia). cbn [Nat.sub].
    rewrite (Nz 4%nat), (Nz 2%nat), !Wd_blk by lia. cbn [nth Nat.sub]. dget_simp. rewrite !N6 by lia.
    apply w32_small, rotl32_lt.
Qed.

(** ** the two computing methods *)
Lemma alpha_eq s dw tmw tw bw data : valid_setup s -> word dw -> word tmw -> word tw -> word bw ->
  holds (block s dw tmw tw bw) data (seq 0 9) ->
  pre_rounds (dget data) 0x67452301 0xEFCDAB89 0x98BADCFE 0x10325476 0xC3D2E1F0
  = alpha_of (schedule (block s dw tmw tw bw)).
Proof.
  intros V A B C D H.
  assert (P : forall i, (i < 9)%nat -> dget data i = nth i (schedule (block s dw tmw tw bw)) 0).
  { intros i I. assert (J : In i (seq 0 9)) by (apply in_seq; lia). unfold dget. rewrite (H i J). unfold Wd. reflexivity. }
  pose proof (pre_rounds_ok _ _ 0x67452301 0xEFCDAB89 0x98BADCFE 0x10325476 0xC3D2E1F0 P) as Q.
  assert (VW : vword (0x67452301, 0xEFCDAB89, 0x98BADCFE, 0x10325476, 0xC3D2E1F0)) by (repeat split; reflexivity).
  specialize (Q VW). unfold alpha_of, H0. unfold same_result in Q.
  destruct (fold_left _ (seq 0 9) _) as [[[[a b] c] d] e]. exact (proj2 Q).
Qed.

Lemma seed_ok s d t tm b a1 b1 c1 d1 e1 :
  b < 2^32 -> word a1 -> word b1 ->
  fold_left (round (schedule (block s (datew d) (timerw tm) (timew (s_console s) t) b))) (seq 0 80) H0 = (a1, b1, c1, d1, e1) ->
  lcrng64_next (p64_add BWRNG) (p64_mult BWRNG)
    (lcrng64_new (N.lor (shl64 (change_endian_u32 (w32 (b1 + 0xEFCDAB89))) 32) (change_endian_u32 (w32 (a1 + 0x67452301)))))
  = initial_seed s d t tm b.
Proof.
  intros B A1 B1 E. unfold initial_seed, sha1_digest. rewrite blocks_message by exact B.
  cbn [fold_left]. unfold compress. unfold H0 at 1. rewrite E.
  assert (F8 : forall x y r, firstn 8 (be_bytes 4 x ++ be_bytes 4 y ++ r) = be_bytes 4 x ++ be_bytes 4 y).
  { intros x y r. rewrite !be4. reflexivity. }
  rewrite F8, le8 by apply mod_word.
  rewrite !endian_le by apply w32_lt.
  assert (Ea : w32 (a1 + 0x67452301) = (0x67452301 + a1) mod W32) by (unfold w32, W32; f_equal; apply N.add_comm).
  assert (Eb : w32 (b1 + 0xEFCDAB89) = (0xEFCDAB89 + b1) mod W32) by (unfold w32, W32; f_equal; apply N.add_comm).
  rewrite Ea, Eb. clear Ea Eb.
  pose proof (le4_word ((0xEFCDAB89 + b1) mod W32)) as L1. pose proof (le4_word ((0x67452301 + a1) mod W32)) as L2.
  set (x := be_value (le_bytes 4 ((0xEFCDAB89 + b1) mod W32))) in *. set (y := be_value (le_bytes 4 ((0x67452301 + a1) mod W32))) in *.
  clearbody x y. unfold shl64.
  rewrite (w64_small (N.shiftl x 32)) by (rewrite N.shiftl_mul_pow2; change (2^32) with 4294967296; clear - L1; lia).
  rewrite lor_shiftl_add by exact L2. change (2^32) with 4294967296.
  unfold lcrng64_new, lcrng64_next. rewrite (w64_small (x * 4294967296 + y)) by (clear - L1 L2; lia).
  cbn [p64_add p64_mult BWRNG].
  rewrite (N.mul_comm 0x5D588B656C078965). generalize (x * 4294967296 + y). intro z.
  unfold w64. reflexivity.
Qed.

(** ** steps *)
Definition op_of (c : call) : sha_op :=
  match c with
  | CDate (y, mo, da, dow) => SDate y mo da dow
  | CTime (h, mi, s) => STime h mi s
  | CTimer (t0, vc) => STimer0 t0 vc
  | CButton b => SButton b
  | CPrecompute => SPrecompute
  | CHash => SHash
  end.

Lemma inv_frame s k k' self alpha data' l :
  inv s k (self, alpha) -> frame l (sha_data self) data' -> disjoint fixed l = true ->
  (k_date k' = k_date k /\ disjoint [8%nat] l = true \/ forall d, k_date k' = Some d -> valid_date d = true /\ aget data' 8 = datew d) ->
  (k_time k' = k_time k /\ disjoint [9%nat] l = true \/ forall t, k_time k' = Some t -> valid_time t = true /\ aget data' 9 = timew (s_console s) t) ->
  (k_timer k' = k_timer k /\ disjoint [5%nat] l = true \/ forall t, k_timer k' = Some t -> valid_timer t = true /\ aget data' 5 = timerw t) ->
  (k_button k' = k_button k /\ disjoint [12%nat] l = true \/ forall b, k_button k' = Some b -> b < 2^32 /\ aget data' 12 = b) ->
  (k_fresh k' = true -> k_fresh k = true /\ k_date k' = k_date k /\ k_timer k' = k_timer k /\ disjoint pre l = true) ->
  inv s k' (mk_sha1 data' (sha_ds_type self), alpha).
Proof.
  intros I F DF A1 A2 A3 A4 A5. destruct I as [I1 I2 I3 I4 I5 I6 I7 I8]. cbn [fst snd] in *.
  assert (keep1 : forall i, disjoint [i] l = true -> aget data' i = aget (sha_data self) i).
  { intros i D. apply F. apply (disjoint_notin [i] l i D). now left. }
  split; cbn [fst snd sha_data sha_ds_type].
  - rewrite (proj1 F). exact I1.
  - exact I2.
  - intros. eapply holds_frame; [exact DF|exact F|]. apply I3; assumption.
  - destruct A1 as [[E D]|A]; [|exact A]. intros d Hd. rewrite E in Hd. rewrite keep1 by exact D. apply I4, Hd.
  - destruct A2 as [[E D]|A]; [|exact A]. intros d Hd. rewrite E in Hd. rewrite keep1 by exact D. apply I5, Hd.
  - destruct A3 as [[E D]|A]; [|exact A]. intros d Hd. rewrite E in Hd. rewrite keep1 by exact D. apply I6, Hd.
  - destruct A4 as [[E D]|A]; [|exact A]. intros d Hd. rewrite E in Hd. rewrite keep1 by exact D. apply I7, Hd.
  - intros Fr. destruct (A5 Fr) as (E0 & E1 & E2 & D). destruct (I8 E0) as (d & tm & Ed & Et & H).
    exists d, tm. split; [congruence|]. split; [congruence|]. intros tw bw Tw Bw. destruct (H tw bw Tw Bw) as [Ha Hb].
    split; [|exact Hb]. eapply holds_frame; [exact D|exact F|exact Ha].
Qed.

Lemma set_date_frame self y mo da dow self' : sha1_set_date self y mo da dow = Ok self' ->
  frame [8%nat] (sha_data self) (sha_data self') /\ sha_ds_type self' = sha_ds_type self.
Proof.
  unfold sha1_set_date. destruct (bcd_at (w16 _)); [|discriminate]. cbn [rbind].
  destruct (bcd_at (w8 mo)); [|discriminate]. cbn [rbind]. destruct (bcd_at (w8 da)); [|discriminate]. cbn [rbind].
  intros E. apply (f_equal (fun r => match r with Ok x => x | Raise _ => self end)) in E. cbv beta iota in E. subst self'.
  split; [apply frame_dset|reflexivity].
Qed.
Lemma set_time_frame self h mi se self' : sha1_set_time self h mi se = Ok self' ->
  frame [9%nat] (sha_data self) (sha_data self') /\ sha_ds_type self' = sha_ds_type self.
Proof.
  unfold sha1_set_time. destruct (bcd_at (w8 h)); [|discriminate]. cbn [rbind]. cbv zeta.
  destruct (bcd_at (w8 mi)); [|discriminate]. cbn [rbind]. destruct (bcd_at (w8 se)); [|discriminate]. cbn [rbind].
  intros E. apply (f_equal (fun r => match r with Ok x => x | Raise _ => self end)) in E. cbv beta iota in E. subst self'.
  split; [apply frame_dset|reflexivity].
Qed.
Lemma frame_ds_inv s k self self' alpha : sha_ds_type self' = sha_ds_type self ->
  inv s k (mk_sha1 (sha_data self') (sha_ds_type self), alpha) -> inv s k (self', alpha).
Proof. intros E. rewrite <- E. now destruct self'. Qed.

Lemma i_length' s k self alpha : inv s k (self, alpha) -> length (sha_data self) = 80%nat.
Proof. apply i_length. Qed.
Ltac same := left; split; reflexivity.
Lemma date_step s k self alpha d : inv s k (self, alpha) ->
  inv s (learn k (CDate d)) (fst (sha_call (self, alpha) (op_of (CDate d)))) /\
  meets (promised s k (CDate d)) (snd (sha_call (self, alpha) (op_of (CDate d)))).
Proof.
  intros I. destruct d as [[[y mo] da] dow]. unfold op_of, sha_call, promised, learn, keep.
  destruct (valid_date (y, mo, da, dow)) eqn:V.
  - rewrite (set_date_ok self y mo da dow V). cbn [fst snd]. split; [|reflexivity].
    apply (inv_frame s k _ self alpha _ [8%nat]); try exact I; try (apply frame_dset); try reflexivity; try same; cbn [k_date k_fresh].
    + right. intros d' E. assert (d' = (y, mo, da, dow)) by congruence. subst d'. split; [exact V|].
      unfold dset. rewrite aget_aset_eq by (rewrite (i_length' _ _ _ _ I); lia). apply w32_small, datew_word, V.
    + discriminate.
  - destruct (sha1_set_date self y mo da dow) as [self'|e] eqn:E; cbn [fst snd]; split; try exact I0; try exact Logic.I.
    + destruct (set_date_frame _ _ _ _ _ _ E) as [F D]. apply (frame_ds_inv _ _ self); [exact D|].
      apply (inv_frame s k _ self alpha _ [8%nat]); try exact I; try exact F; try reflexivity; try same; cbn [k_date k_fresh]; [|discriminate].
      right. discriminate.
    + replace self with (mk_sha1 (sha_data self) (sha_ds_type self)) by now destruct self.
      apply (inv_frame s k _ self alpha _ []); try exact I; try apply frame_refl; try reflexivity; try same; cbn [k_date k_fresh]; [|discriminate].
      right. discriminate.
Qed.
Lemma time_step s k self alpha t : inv s k (self, alpha) ->
  inv s (learn k (CTime t)) (fst (sha_call (self, alpha) (op_of (CTime t)))) /\
  meets (promised s k (CTime t)) (snd (sha_call (self, alpha) (op_of (CTime t)))).
Proof.
  intros I. destruct t as [[h mi] se]. unfold op_of, sha_call, promised, learn, keep.
  assert (Fr : k_fresh k = true -> k_fresh k = true /\ k_date k = k_date k /\ k_timer k = k_timer k /\ disjoint pre [9%nat] = true).
  { intros Q. repeat split. exact Q. }
  destruct (valid_time (h, mi, se)) eqn:V.
  - rewrite (set_time_ok self (s_console s) h mi se (i_ds _ _ _ I) V). cbn [fst snd]. split; [|reflexivity].
    apply (inv_frame s k _ self alpha _ [9%nat]); try exact I; try (apply frame_dset); try reflexivity; try same; try exact Fr; cbn [k_time].
    right. intros d' E. assert (d' = (h, mi, se)) by congruence. subst d'. split; [exact V|].
    unfold dset. rewrite aget_aset_eq by (rewrite (i_length' _ _ _ _ I); lia). apply w32_small, timew_word, V.
  - destruct (sha1_set_time self h mi se) as [self'|e] eqn:E; cbn [fst snd]; split; try exact Logic.I.
    + destruct (set_time_frame _ _ _ _ _ E) as [F D]. apply (frame_ds_inv _ _ self); [exact D|].
      apply (inv_frame s k _ self alpha _ [9%nat]); try exact I; try exact F; try reflexivity; try same; try exact Fr; cbn [k_time].
      right. discriminate.
    + replace self with (mk_sha1 (sha_data self) (sha_ds_type self)) by now destruct self.
      apply (inv_frame s k _ self alpha _ []); try exact I; try apply frame_refl; try reflexivity; try same; try exact Fr; cbn [k_time].
      right. discriminate.
Qed.
Lemma timer_step s k self alpha t : inv s k (self, alpha) ->
  inv s (learn k (CTimer t)) (fst (sha_call (self, alpha) (op_of (CTimer t)))) /\
  meets (promised s k (CTimer t)) (snd (sha_call (self, alpha) (op_of (CTimer t)))).
Proof.
  intros I. destruct t as [t0 vc]. unfold op_of, sha_call, promised, learn, keep. cbn [fst snd]. split; [|reflexivity].
  destruct (valid_timer (t0, vc)) eqn:V.
  - rewrite (set_timer_ok self t0 vc V).
    apply (inv_frame s k _ self alpha _ [5%nat]); try exact I; try (apply frame_dset); try reflexivity; try same; cbn [k_timer k_fresh]; [|discriminate].
    right. intros d' E. assert (d' = (t0, vc)) by congruence. subst d'. split; [exact V|].
    unfold dset. rewrite aget_aset_eq by (rewrite (i_length' _ _ _ _ I); lia). apply w32_small, timerw_word, V.
  - apply (inv_frame s k _ self alpha _ [5%nat]); try exact I; try (apply frame_dset); try reflexivity; try same; cbn [k_timer k_fresh]; [|discriminate].
    right. discriminate.
Qed.
Lemma button_step s k self alpha b : inv s k (self, alpha) ->
  inv s (learn k (CButton b)) (fst (sha_call (self, alpha) (op_of (CButton b)))) /\
  meets (promised s k (CButton b)) (snd (sha_call (self, alpha) (op_of (CButton b)))).
Proof.
  intros I. unfold op_of, sha_call, promised, learn. cbn [fst snd]. split; [|reflexivity].
  unfold sha1_set_button.
  apply (inv_frame s k _ self alpha _ [12%nat]); try exact I; try (apply frame_dset); try reflexivity; try same.
  - right. cbn [k_button]. unfold keep. intros b'. destruct (N.ltb_spec b (2^32)) as [B|B]; [|discriminate].
    intros E. assert (b' = b) by congruence. subst b'. split; [exact B|].
    unfold dset. rewrite aget_aset_eq by (rewrite (i_length' _ _ _ _ I); lia). rewrite w32_w32. now apply w32_small.
  - intros Q. repeat split. exact Q.
Qed.

Lemma holds_one blk data i : aget data i = Wd blk i -> holds blk data [i].
Proof. intros E j [<-|[]]. exact E. Qed.

Lemma precompute_step s k self alpha : valid_setup s -> inv s k (self, alpha) ->
  inv s (learn k CPrecompute) (fst (sha_call (self, alpha) (op_of CPrecompute))) /\
  meets (promised s k CPrecompute) (snd (sha_call (self, alpha) (op_of CPrecompute))).
Proof.
  intros VS I. unfold op_of, sha_call, promised. cbn [fst snd]. split; [|reflexivity].
  unfold sha1_precompute. fold pre.
  assert (I' : inv s {| k_date := k_date k; k_time := k_time k; k_timer := k_timer k; k_button := k_button k; k_fresh := false |}
             (mk_sha1 (fold_left calc_w pre (sha_data self)) (sha_ds_type self), alpha)).
  { apply (inv_frame s k _ self alpha _ pre); try exact I; try apply frame_calc_ws; try reflexivity; try same. discriminate. }
  destruct I' as [I1 I2 I3 I4 I5 I6 I7 I8]. cbn [fst snd] in *. clear I8.
  split; cbn [fst snd]; try assumption.
  unfold learn. cbn [k_date k_timer k_fresh]. intros Fr.
  destruct I as [J1 J2 J3 J4 J5 J6 J7 J8]. cbn [fst snd] in *.
  destruct (k_date k) as [d|] eqn:Ed; [|discriminate]. destruct (k_timer k) as [tm|] eqn:Et; [|discriminate].
  exists d, tm. split; [reflexivity|]. split; [reflexivity|]. intros tw bw Tw Bw.
  destruct (J4 d eq_refl) as [Vd Dd]. destruct (J6 tm eq_refl) as [Vt Dt].
  pose proof (datew_word d Vd) as Wdd. pose proof (timerw_word tm Vt) as Wtt.
  set (blk := block s (datew d) (timerw tm) tw bw).
  assert (H : holds blk (sha_data self) (8 :: 5 :: fixed)%nat).
  { apply (holds_app blk _ [8%nat] (5 :: fixed)%nat); [|apply (holds_app blk _ [5%nat] fixed)].
    - apply holds_one. unfold blk. rewrite Wd_blk by lia. exact Dd.
    - apply holds_one. unfold blk. rewrite Wd_blk by lia. exact Dt.
    - apply J3; assumption. }
  split.
  - cbn [sha_data]. apply (holds_sub blk _ (rev pre ++ (8 :: 5 :: fixed)%nat)); [reflexivity|].
    apply calc_ws_holds; [apply block_length|apply block_word; assumption|exact J1|reflexivity|exact H].
  - apply alpha_eq; try assumption. apply (holds_sub blk _ (8 :: 5 :: fixed)%nat); [reflexivity|exact H].
Qed.

Lemma hash_frame self alpha : exists data' r, sha1_hash_seed self alpha = (mk_sha1 data' (sha_ds_type self), r) /\
  frame (post ++ seq 32 48) (sha_data self) data'.
Proof.
  unfold sha1_hash_seed. fold post.
  set (d1 := fold_left calc_w post (sha_data self)).
  set (d2 := for_range 48 32 _ d1).
  destruct (hash_rounds _ _ _ _ _ _) as [b c]. do 2 eexists. split; [reflexivity|].
  apply (frame_trans _ _ d1).
  - apply (frame_weaken post); [apply incl_appl, incl_refl|apply frame_calc_ws].
  - apply (frame_weaken (seq 32 48)); [apply incl_appr, incl_refl|apply frame_simd].
Qed.

Lemma hash_value blk self a1 b1 c1 d1 e1 a2 b2 c2 d2 e2 : length blk = 16%nat -> Forall word blk ->
  length (sha_data self) = 80%nat -> holds blk (sha_data self) (8 :: 9 :: 5 :: 12 :: fixed ++ pre)%nat ->
  fold_left (round (schedule blk)) (seq 0 9) H0 = (a1, b1, c1, d1, e1) ->
  fold_left (round (schedule blk)) (seq 0 80) H0 = (a2, b2, c2, d2, e2) ->
  word a2 /\ word b2 /\
  snd (sha1_hash_seed self [a1; b1; c1; d1; e1]) =
  lcrng64_next (p64_add BWRNG) (p64_mult BWRNG)
    (lcrng64_new (N.lor (shl64 (change_endian_u32 (w32 (b2 + 0xEFCDAB89))) 32) (change_endian_u32 (w32 (a2 + 0x67452301))))).
Proof.
  intros BL BW J1 H E1 E2.
  assert (H1 : holds blk (fold_left calc_w post (sha_data self)) (seq 0 32)).
  { apply (holds_sub blk _ (rev post ++ (8 :: 9 :: 5 :: 12 :: fixed ++ pre)%nat)); [reflexivity|].
    apply calc_ws_holds; [exact BL|exact BW|exact J1|reflexivity|exact H]. }
  assert (L1 : length (fold_left calc_w post (sha_data self)) = 80%nat) by (rewrite calc_ws_length; exact J1).
  assert (P9 : vword (a1, b1, c1, d1, e1)).
  { assert (Pw : forall i, (i < 9)%nat -> Wd blk i = nth i (schedule blk) 0) by (intros; unfold Wd; reflexivity).
    assert (VW : vword (0x67452301, 0xEFCDAB89, 0x98BADCFE, 0x10325476, 0xC3D2E1F0)) by (repeat split; reflexivity).
    pose proof (pre_rounds_ok (schedule blk) (Wd blk) 0x67452301 0xEFCDAB89 0x98BADCFE 0x10325476 0xC3D2E1F0 Pw VW) as Q.
    fold H0 in Q. rewrite E1 in Q. exact (proj1 Q). }
  rewrite rounds_split, E1 in E2.
  destruct (simd_holds blk BL BW _ L1 H1) as [L2 H2].
  assert (Pw : forall i, (9 <= i < 80)%nat ->
    dget (for_range 48 32 (fun i data => calc_w_simd data i) (fold_left calc_w post (sha_data self))) i = nth i (schedule blk) 0).
  { intros i Hi. unfold dget. rewrite H2 by lia. unfold Wd. reflexivity. }
  pose proof (hash_rounds_ok (schedule blk) _ a1 b1 c1 d1 e1 Pw P9) as Q. clear Pw.
  rewrite E2 in Q. destruct Q as [(QA & QB & _) QE].
  split; [exact QA|]. split; [exact QB|].
  unfold sha1_hash_seed. fold post. cbv zeta.
  change (aget [a1; b1; c1; d1; e1] 0) with a1. change (aget [a1; b1; c1; d1; e1] 1) with b1.
  change (aget [a1; b1; c1; d1; e1] 2) with c1. change (aget [a1; b1; c1; d1; e1] 3) with d1.
  change (aget [a1; b1; c1; d1; e1] 4) with e1.
  rewrite QE. cbn [snd]. reflexivity.
Qed.

Lemma hash_step s k self alpha : valid_setup s -> inv s k (self, alpha) ->
  inv s (learn k CHash) (fst (sha_call (self, alpha) (op_of CHash))) /\
  meets (promised s k CHash) (snd (sha_call (self, alpha) (op_of CHash))).
Proof.
  intros VS I. unfold op_of, sha_call, learn. split.
  { destruct (hash_frame self alpha) as (data' & r & E & F). rewrite E. cbn [fst snd].
    apply (inv_frame s k _ self alpha _ (post ++ seq 32 48)); try exact I; try exact F; try reflexivity; try same.
    intros Fr. repeat split. exact Fr. }
  unfold promised.
  destruct (k_date k) as [d|] eqn:Ed; [|exact Logic.I]. destruct (k_time k) as [t|] eqn:Eti; [|exact Logic.I].
  destruct (k_timer k) as [tm|] eqn:Et; [|exact Logic.I]. destruct (k_button k) as [b|] eqn:Eb; [|exact Logic.I].
  destruct (k_fresh k) eqn:Ef; [|exact Logic.I].
  destruct I as [J1 J2 J3 J4 J5 J6 J7 J8]. cbn [fst snd] in *.
  destruct (J4 d Ed) as [Vd Dd]. destruct (J5 t Eti) as [Vti Dti]. destruct (J6 tm Et) as [Vt Dt]. destruct (J7 b Eb) as [Vb Db].
  destruct (J8 Ef) as (d' & tm' & Ed' & Et' & H).
  assert (d' = d) by congruence. assert (tm' = tm) by congruence. subst d' tm'.
  pose proof (datew_word d Vd) as Wdd. pose proof (timerw_word tm Vt) as Wtt. pose proof (timew_word (s_console s) t Vti) as Wti.
  destruct (H (timew (s_console s) t) b Wti Vb) as [Hp Ha]. clear H.
  set (blk := block s (datew d) (timerw tm) (timew (s_console s) t) b) in *.
  assert (BW : Forall word blk) by (apply block_word; assumption).
  assert (H : holds blk (sha_data self) (8 :: 9 :: 5 :: 12 :: fixed ++ pre)%nat).
  { apply (holds_app blk _ [8%nat] (9 :: 5 :: 12 :: fixed ++ pre)%nat); [|apply (holds_app blk _ [9%nat] (5 :: 12 :: fixed ++ pre)%nat);
      [|apply (holds_app blk _ [5%nat] (12 :: fixed ++ pre)%nat); [|apply (holds_app blk _ [12%nat] (fixed ++ pre)%nat); [|apply holds_app]]]].
    - apply holds_one. unfold blk. rewrite Wd_blk by lia. exact Dd.
    - apply holds_one. unfold blk. rewrite Wd_blk by lia. exact Dti.
    - apply holds_one. unfold blk. rewrite Wd_blk by lia. exact Dt.
    - apply holds_one. unfold blk. rewrite Wd_blk by lia. exact Db.
    - apply J3; assumption.
    - exact Hp. }
  unfold alpha_of in Ha.
  destruct (fold_left (round (schedule blk)) (seq 0 9) H0) as [[[[a1 b1] c1] d1] e1] eqn:E1.
  destruct (fold_left (round (schedule blk)) (seq 0 80) H0) as [[[[a2 b2] c2] d2] e2] eqn:E2.
  destruct (hash_value blk self a1 b1 c1 d1 e1 a2 b2 c2 d2 e2 (block_length _ _ _ _ _) BW J1 H E1 E2) as (WA & WB & V).
  rewrite (seed_ok s d t tm b a2 b2 c2 d2 e2 Vb WA WB E2) in V.
  rewrite Ha. destruct (sha1_hash_seed self [a1; b1; c1; d1; e1]) as [self' r]. cbn [snd] in V |- *. unfold meets. rewrite V. reflexivity.
Qed.

Lemma step_ok s k st c : valid_setup s -> inv s k st ->
  inv s (learn k c) (fst (sha_call st (op_of c))) /\ meets (promised s k c) (snd (sha_call st (op_of c))).
Proof.
  intros V I. destruct st as [self alpha]. destruct c as [d|t|t|b| |].
  - now apply date_step. - now apply time_step. - now apply timer_step. - now apply button_step.
  - now apply precompute_step. - now apply hash_step.
Qed.
Lemma sha_calls_cons st op ops : sha_calls st (op :: ops) =
  (fst (sha_calls (fst (sha_call st op)) ops), snd (sha_call st op) :: snd (sha_calls (fst (sha_call st op)) ops)).
Proof.
  unfold sha_calls. cbn [calls_with]. destruct (sha_call st op) as [st' o]. cbn [fst snd]. destruct (calls_with sha_call st' ops) as [st'' os]. reflexivity.
Qed.
Lemma session_ok s : valid_setup s -> forall cs k st, inv s k st ->
  Forall2 meets (promises s k cs) (snd (sha_calls st (map op_of cs))).
Proof.
  intros V. induction cs as [|c cs IH]; intros k st I; [constructor|].
  cbn [map promises]. rewrite sha_calls_cons. cbn [snd].
  destruct (step_ok s k st c V I) as [I' M]. constructor; [exact M|]. apply IH, I'.
Qed.
