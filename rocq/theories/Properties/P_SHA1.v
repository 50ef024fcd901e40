(** C34-C36: Gen 5 initial seeds. *)
From Coq Require Import NArith List Bool.
From Verif Require Import Base.Word Model.SHA1 Model.SHA1Class Spec.SHA1Spec
  Proofs.SHA1Proofs Proofs.SHA1Session Proofs.SHA1Encode.
Import ListNotations.
Open Scope N_scope.

(** The object for a setup, built on any junk in the uninitialised buffer, and no alpha
    yet; [op_of] is the method call named by a [call]. *)
Definition fresh_object (junk : list N) (s : setup) : sha1 * list N :=
  (sha1_new junk (version_value (s_version s)) (language_value (s_language s)) (console_value (s_console s))
     (s_mac s) (s_soft_reset s) (s_vframe s) (s_gx s), []).

Theorem C34_seed_is_sha1 junk s d t tm b : length junk = 80%nat -> valid_setup s ->
  valid_date d = true -> valid_time t = true -> valid_timer tm = true -> b < 2^32 ->
  snd (sha_calls (fresh_object junk s)
         (map op_of [CDate d; CTime t; CTimer tm; CButton b; CPrecompute; CHash]))
  = [ONone; ONone; ONone; ONone; ONone; OVal (initial_seed s d t tm b)].
Proof. exact (full_run s junk d t tm b). Qed.
Print Assumptions C34_seed_is_sha1.

Definition case_setup : setup :=
  {| s_version := White2; s_language := German; s_console := DS3; s_mac := 0x9BF123456;
     s_soft_reset := true; s_vframe := 8; s_gx := 6 |}.
Definition case_date : date := (2013, 7, 28, 0).
Definition case_time : time := (18, 45, 9).
Definition case_timer : timer := (0x10F8, 0x82).
Example C34_case : valid_setup case_setup /\
  (valid_date case_date && valid_time case_time && valid_timer case_timer) = true /\
  initial_seed case_setup case_date case_time case_timer 0xFF2F0000 <>
  initial_seed case_setup case_date (18, 45, 10) case_timer 0xFF2F0000.
Proof. repeat split; try reflexivity. now vm_compute. Qed.
(** The specification gives the seed of tests/_test_sha1.py. *)
Example C34_vector :
  initial_seed {| s_version := Black; s_language := English; s_console := DSLite; s_mac := 0x9BF123456;
                  s_soft_reset := false; s_vframe := 6; s_gx := 6 |}
    (2067, 10, 31, 1) (16, 12, 20) (0x666, 0x3F) 0xFF2F0000 = 14644003586327074781.
Proof. now vm_compute. Qed.

(** For any other game or language get_nazo gives five zeros and raises nothing. *)
Theorem C34_other_games_actual : forall version language ds_type,
  (forall v, version <> version_value v) \/ (forall l, language <> language_value l) ->
  get_nazo version language ds_type = [0; 0; 0; 0; 0].
Proof. exact nazo_other. Qed.
Print Assumptions C34_other_games_actual.
(** Black and White together (0x3000) in English, and a language numbered 7. *)
Example C34_other_games_case :
  (forall v, 0x3000 <> version_value v) /\ (forall l, 7 <> language_value l) /\
  get_nazo 0x3000 (language_value English) 0 = [0; 0; 0; 0; 0].
Proof. split; [|split]; [intros []; discriminate|intros []; discriminate|reflexivity]. Qed.

(** Any sequence of calls: every hash_seed after which all parameters are known and
    precompute ran since the last change of date or timer returns the right seed. *)
Theorem C35_precompute_reused junk s : length junk = 80%nat -> valid_setup s -> forall calls,
  Forall2 meets (promises s nothing_known calls)
                (snd (sha_calls (fresh_object junk s) (map op_of calls))).
Proof. intros J V calls. exact (session_ok s V calls nothing_known _ (new_inv junk s J V)). Qed.
Print Assumptions C35_precompute_reused.

(** A session that reuses one precompute for three hashes: each is promised. *)
Definition reuse_calls : list call :=
  [CDate case_date; CTimer case_timer; CPrecompute; CTime (1, 2, 3); CButton 0xFF2F0000; CHash;
   CTime case_time; CHash; CButton 0xFE260000; CHash].
Example C35_case : valid_setup case_setup /\
  map is_some (promises case_setup nothing_known reuse_calls) = repeat true 10 /\
  nth 9 (promises case_setup nothing_known reuse_calls) None =
  Some (OVal (initial_seed case_setup case_date case_time case_timer 0xFE260000)).
Proof. repeat split; reflexivity || now vm_compute. Qed.

(** Without a new precompute, a changed date or timer gives a seed of neither setting. *)
Theorem C35_stale_alpha_is_wrong :
  let run calls := snd (sha_calls (fresh_object (repeat 0 80) case_setup) (map op_of calls)) in
  let seed d tm := initial_seed case_setup d case_time tm 0xFF2F0000 in
  let setup := [CDate case_date; CTimer case_timer; CTime case_time; CButton 0xFF2F0000; CPrecompute] in
  (exists v, nth 6 (run (setup ++ [CDate (2013, 7, 29, 1); CHash])) ONone = OVal v /\
     v <> seed (2013, 7, 29, 1) case_timer /\ v <> seed case_date case_timer) /\
  (exists v, nth 6 (run (setup ++ [CTimer (0x10F9, 0x82); CHash])) ONone = OVal v /\
     v <> seed case_date (0x10F9, 0x82) /\ v <> seed case_date case_timer).
Proof. cbv zeta. split; eexists; (split; [vm_compute; reflexivity|]); split; now vm_compute. Qed.
Print Assumptions C35_stale_alpha_is_wrong.

(** Each setter writes its documented word and nothing else. *)
Theorem C36_setters c self : length (sha_data self) = 80%nat -> sha_ds_type self = console_value c ->
  (forall y mo da dow, valid_date (y, mo, da, dow) = true ->
     exists self', sha1_set_date self y mo da dow = Ok self' /\ only_word 8 (be_value (date_bytes (y, mo, da, dow))) self self') /\
  (forall h mi se, valid_time (h, mi, se) = true ->
     exists self', sha1_set_time self h mi se = Ok self' /\ only_word 9 (be_value (time_bytes c (h, mi, se))) self self') /\
  (forall t0 vc, valid_timer (t0, vc) = true ->
     only_word 5 (be_value (timer_bytes (t0, vc))) self (sha1_set_timer0 self t0 vc)) /\
  (forall b, b < 2^32 -> only_word 12 b self (sha1_set_button self b)).
Proof. exact (setters_ok c self). Qed.
Print Assumptions C36_setters.
Example C36_case : valid_date case_date = true /\ be_value (date_bytes case_date) = 0x13072800 /\
  be_value (time_bytes DSLite case_time) = 0x58450900 /\ be_value (time_bytes DS3 case_time) = 0x18450900 /\
  be_value (timer_bytes case_timer) = 0xF8108200.
Proof. repeat split. Qed.

Theorem C36_injective :
  (forall d d', valid_date d = true -> valid_date d' = true ->
     be_value (date_bytes d) = be_value (date_bytes d') -> d = d') /\
  (forall c t t', valid_time t = true -> valid_time t' = true ->
     be_value (time_bytes c t) = be_value (time_bytes c t') -> t = t') /\
  (forall t t', valid_timer t = true -> valid_timer t' = true ->
     be_value (timer_bytes t) = be_value (timer_bytes t') -> t = t').
Proof. exact (conj date_inj (conj time_inj timer_inj)). Qed.
Print Assumptions C36_injective.

(** A year outside 2000-2099 raises IndexError (without numba) instead of wrapping to
    another year. *)
Theorem C36_bad_year_raises self y mo da dow : 2100 <= y < 65536 \/ y < 2000 ->
  sha1_set_date self y mo da dow = Raise IndexError.
Proof. exact (set_date_bad self y mo da dow). Qed.
Print Assumptions C36_bad_year_raises.
Example C36_bad_year_case : 2100 <= 2100 < 65536 \/ 2100 < 2000.
Proof. left. now vm_compute. Qed.
