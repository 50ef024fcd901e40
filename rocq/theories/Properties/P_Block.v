(** C90: what the block that is hashed tells about the settings. *)
From Coq Require Import NArith List Bool.
From Verif Require Import Base.Word Model.SHA1 Model.SHA1Class Spec.SHA1Spec Spec.BlockSpec
  Proofs.SHA1Session Proofs.SHA1Encode Proofs.BlockProofs.
Import ListNotations.
Open Scope N_scope.

(** A new object with the given settings, on any junk in the uninitialised buffer, and the 16
    words that its hash is made from. *)
Definition new_object (junk : list N) (s : setup) : sha1 * list N :=
  (sha1_new junk (version_value (s_version s)) (language_value (s_language s)) (console_value (s_console s))
     (s_mac s) (s_soft_reset s) (s_vframe s) (s_gx s), []).
Definition words_of (junk : list N) (s : setup) (d : date) (t : time) (tm : timer) (b : N) : list N :=
  firstn 16 (sha_data (fst (fst (sha_calls (new_object junk s) (map op_of [CDate d; CTime t; CTimer tm; CButton b]))))).
Definition seed_of (junk : list N) (s : setup) (d : date) (t : time) (tm : timer) (b : N) : outcome :=
  last (snd (sha_calls (new_object junk s) (map op_of [CDate d; CTime t; CTimer tm; CButton b; CPrecompute; CHash]))) ONone.

(** C90. Two settings have the same block exactly if they cannot be told apart by the games'
    addresses, the MAC address as seen, the soft reset, the date, the clock, the timer and
    the buttons. *)
Theorem C90_same_block : forall junk junk' s d t tm b s' d' t' tm' b', length junk = 80%nat -> length junk' = 80%nat ->
  valid_setup s -> valid_setup s' ->
  valid_date d = true -> valid_time t = true -> valid_timer tm = true -> b < 2^32 ->
  valid_date d' = true -> valid_time t' = true -> valid_timer tm' = true -> b' < 2^32 ->
  (words_of junk s d t tm b = words_of junk' s' d' t' tm' b' <-> same_settings s d t tm b s' d' t' tm' b').
Proof. exact blocks_told. Qed.
Print Assumptions C90_same_block.

(** On one console every other date, time, timer or set of buttons gives another block. *)
Theorem C90_one_console : forall junk s d t tm b d' t' tm' b', length junk = 80%nat -> valid_setup s ->
  valid_date d = true -> valid_time t = true -> valid_timer tm = true -> b < 2^32 ->
  valid_date d' = true -> valid_time t' = true -> valid_timer tm' = true -> b' < 2^32 ->
  (d, t, tm, b) <> (d', t', tm', b') -> words_of junk s d t tm b <> words_of junk s d' t' tm' b'.
Proof.
  intros junk s d t tm b d' t' tm' b' J V Vd Vt Vm Vb Vd' Vt' Vm' Vb' N E. apply N.
  apply (C90_same_block junk junk s d t tm b s d' t' tm' b' J J V V Vd Vt Vm Vb Vd' Vt' Vm' Vb') in E.
  destruct E as (_ & _ & _ & -> & -> & _ & -> & ->). reflexivity.
Qed.
Print Assumptions C90_one_console.

(** Settings that cannot be told apart give the same seed. *)
Theorem C90_same_seed : forall junk junk' s d t tm b s' d' t' tm' b', length junk = 80%nat -> length junk' = 80%nat ->
  valid_setup s -> valid_setup s' ->
  valid_date d = true -> valid_time t = true -> valid_timer tm = true -> b < 2^32 ->
  valid_date d' = true -> valid_time t' = true -> valid_timer tm' = true -> b' < 2^32 ->
  same_settings s d t tm b s' d' t' tm' b' -> seed_of junk s d t tm b = seed_of junk' s' d' t' tm' b'.
Proof.
  intros junk junk' s d t tm b s' d' t' tm' b' J J' V V' Vd Vt Vm Vb Vd' Vt' Vm' Vb' H. unfold seed_of, new_object.
  rewrite !full_run by assumption. cbn [last]. f_equal. apply same_seed; assumption.
Qed.
Print Assumptions C90_same_seed.

(** Spanish White on a DSi in the morning and Spanish Black on a 3DS, whose MAC addresses and
    frames differ in a way that cancels; not at 18 o'clock, and not in French. *)
Definition spanish_white : setup :=
  {| s_version := White; s_language := Spanish; s_console := DSi; s_mac := 0x9BF123456;
     s_soft_reset := false; s_vframe := 6; s_gx := 6 |}.
Example C90_case :
  let black := {| s_version := Black; s_language := Spanish; s_console := DS3; s_mac := 0x109BF123456;
                  s_soft_reset := false; s_vframe := 7; s_gx := 6 |} in
  let french c v := {| s_version := v; s_language := French; s_console := c; s_mac := 0x9BF123456;
                       s_soft_reset := false; s_vframe := 6; s_gx := 6 |} in
  valid_setup spanish_white /\ valid_setup black /\
  valid_date (2011, 3, 4, 5) = true /\ valid_time (9, 30, 0) = true /\ valid_time (18, 30, 0) = true /\
  valid_timer (0xC7A, 0x5F) = true /\
  same_settings spanish_white (2011, 3, 4, 5) (9, 30, 0) (0xC7A, 0x5F) 0xFF2F0000 black (2011, 3, 4, 5) (9, 30, 0) (0xC7A, 0x5F) 0xFF2F0000 /\
  same_clock DSi DS3 (18, 30, 0) = false /\
  same_memory (french DSi White) (french DSi Black) = false /\ same_memory (french DSLite White) (french DSi White) = false.
Proof. now vm_compute. Qed.
