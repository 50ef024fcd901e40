(** Frame and injectivity of the setters. *)
From Coq Require Import NArith List Bool Lia Arith.
From Verif Require Import Base.Word Base.WordLemmas Model.Util Model.SHA1 Model.SHA1Class Spec.SHA1Spec
  Proofs.UtilProofs Proofs.SHA1Rounds Proofs.SHA1Proofs Proofs.SHA1Session.
Import ListNotations.
Open Scope N_scope.
Ltac Zify.zify_post_hook ::= idtac.

Lemma be4_inj a b c d a' b' c' d' : a < 256 -> b < 256 -> c < 256 -> d < 256 -> a' < 256 -> b' < 256 -> c' < 256 -> d' < 256 ->
  be_value [a; b; c; d] = be_value [a'; b'; c'; d'] -> a = a' /\ b = b' /\ c = c' /\ d = d'.
Proof. rewrite !be_value4. lia. Qed.

Definition below (n : nat) : list N := map N.of_nat (seq 0 n).
Lemma in_below n x : x < N.of_nat n -> In x (below n).
Proof.
  intros H. unfold below. apply in_map_iff. exists (N.to_nat x). split; [apply N2Nat.id|]. apply in_seq. lia.
Qed.
Lemma inj_check (f : N -> N) n : forallb (fun x => forallb (fun y => negb (f x =? f y) || (x =? y)) (below n)) (below n) = true ->
  forall x y, x < N.of_nat n -> y < N.of_nat n -> f x = f y -> x = y.
Proof.
  intros H x y X Y E. rewrite forallb_forall in H. specialize (H x (in_below n x X)).
  rewrite forallb_forall in H. specialize (H y (in_below n y Y)). rewrite E, N.eqb_refl in H. now apply N.eqb_eq.
Qed.
Lemma bcd_inj x y : x < 100 -> y < 100 -> bcd x = bcd y -> x = y.
Proof. apply (inj_check bcd 100). now vm_compute. Qed.
Lemma hour_inj c x y : x < 24 -> y < 24 ->
  bcd x + (match c with DS3 => 0 | _ => if x <? 12 then 0 else 0x40 end) =
  bcd y + (match c with DS3 => 0 | _ => if y <? 12 then 0 else 0x40 end) -> x = y.
Proof.
  apply (inj_check (fun x => bcd x + (match c with DS3 => 0 | _ => if x <? 12 then 0 else 0x40 end)) 24).
  destruct c; now vm_compute.
Qed.

Lemma date_inj d d' : valid_date d = true -> valid_date d' = true -> be_value (date_bytes d) = be_value (date_bytes d') -> d = d'.
Proof.
  destruct d as [[[y mo] da] dow], d' as [[[y' mo'] da'] dow']. intros V V'. unfold valid_date in V, V'.
  rewrite !andb_true_iff, N.leb_le, !N.ltb_lt in V, V'.
  destruct V as ((((Y1 & Y2) & M) & D) & W), V' as ((((Y1' & Y2') & M') & D') & W').
  assert (A : y - 2000 < 100) by lia. assert (A' : y' - 2000 < 100) by lia.
  unfold date_bytes. intros E. apply be4_inj in E; try apply bcd_lt; try assumption. destruct E as (E1 & E2 & E3 & E4).
  apply bcd_inj in E1, E2, E3; try assumption. subst. do 3 f_equal. lia.
Qed.
Lemma hour_lt c h : h < 24 -> bcd h + (match c with DS3 => 0 | _ => if h <? 12 then 0 else 0x40 end) < 256.
Proof. intros H. pose proof (bcd_hour h H). destruct c; try destruct (h <? 12); lia. Qed.
Lemma time_inj c t t' : valid_time t = true -> valid_time t' = true -> be_value (time_bytes c t) = be_value (time_bytes c t') -> t = t'.
Proof.
  destruct t as [[h mi] se], t' as [[h' mi'] se']. intros V V'. unfold valid_time in V, V'.
  rewrite !andb_true_iff, !N.ltb_lt in V, V'. destruct V as ((H & M) & S), V' as ((H' & M') & S').
  assert (m1 : mi < 100) by lia. assert (m2 : mi' < 100) by lia. assert (s1 : se < 100) by lia. assert (s2 : se' < 100) by lia.
  unfold time_bytes. intros E. apply be4_inj in E; try apply hour_lt; try apply bcd_lt; try assumption; try reflexivity.
  destruct E as (E1 & E2 & E3 & _). apply hour_inj in E1; try assumption. apply bcd_inj in E2, E3; try assumption. now subst.
Qed.
Lemma timer_inj t t' : valid_timer t = true -> valid_timer t' = true -> be_value (timer_bytes t) = be_value (timer_bytes t') -> t = t'.
Proof.
  destruct t as [a b], t' as [a' b']. intros V V'. unfold valid_timer in V, V'. rewrite andb_true_iff, !N.ltb_lt in V, V'.
  destruct V as [A B], V' as [A' B']. unfold timer_bytes, le_bytes. rewrite !be2. cbn [rev app].
  assert (Z : forall x, x < 65536 -> x = x / 256 * 256 + x mod 256 /\ x / 256 mod 256 = x / 256).
  { intros x X. split; [rewrite N.mul_comm; apply N.div_mod'|apply N.mod_small, N.div_lt_upper_bound; [discriminate|exact X]]. }
  intros E. apply be4_inj in E; try (apply N.mod_lt; discriminate). destruct E as (E1 & E2 & E3 & E4).
  destruct (Z a A) as [Za1 Za2], (Z a' A') as [Zb1 Zb2], (Z b B) as [Zc1 Zc2], (Z b' B') as [Zd1 Zd2].
  rewrite Za2, Zb2 in E2. rewrite Zc2, Zd2 in E4. rewrite Za1, Zb1, Zc1, Zd1, E1, E2, E3, E4. reflexivity.
Qed.

(** Only word [i] changes, to [v]. *)
Definition only_word (i : nat) (v : N) (self self' : sha1) : Prop :=
  sha_ds_type self' = sha_ds_type self /\ length (sha_data self') = length (sha_data self) /\
  aget (sha_data self') i = v /\ forall j, j <> i -> aget (sha_data self') j = aget (sha_data self) j.
Lemma only_dset self i v : (i < length (sha_data self))%nat -> v < 2^32 ->
  only_word i v self (mk_sha1 (dset (sha_data self) i v) (sha_ds_type self)).
Proof.
  intros L V. split; [reflexivity|]. cbn [sha_data]. unfold dset. split; [apply aset_length|]. split.
  - rewrite aget_aset_eq by exact L. now apply w32_small.
  - intros j J. apply aget_aset_ne. intros ->. now apply J.
Qed.
Lemma setters_ok c self : length (sha_data self) = 80%nat -> sha_ds_type self = console_value c ->
  (forall y mo da dow, valid_date (y, mo, da, dow) = true ->
     exists self', sha1_set_date self y mo da dow = Ok self' /\ only_word 8 (be_value (date_bytes (y, mo, da, dow))) self self') /\
  (forall h mi se, valid_time (h, mi, se) = true ->
     exists self', sha1_set_time self h mi se = Ok self' /\ only_word 9 (be_value (time_bytes c (h, mi, se))) self self') /\
  (forall t0 vc, valid_timer (t0, vc) = true ->
     only_word 5 (be_value (timer_bytes (t0, vc))) self (sha1_set_timer0 self t0 vc)) /\
  (forall b, b < 2^32 -> only_word 12 b self (sha1_set_button self b)).
Proof.
  intros L C. split; [|split; [|split]].
  - intros y mo da dow V. rewrite (set_date_ok self y mo da dow V). eexists. split; [reflexivity|].
    apply only_dset; [rewrite L; lia|]. apply (datew_word _ V).
  - intros h mi se V. rewrite (set_time_ok self c h mi se C V). eexists. split; [reflexivity|].
    apply only_dset; [rewrite L; lia|]. apply (timew_word c _ V).
  - intros t0 vc V. rewrite (set_timer_ok self t0 vc V). apply only_dset; [rewrite L; lia|]. apply (timerw_word _ V).
  - intros b B. unfold sha1_set_button. rewrite (w32_small b) by exact B. apply only_dset; [rewrite L; lia|exact B].
Qed.

(** Out-of-table values raise and leave the object alone. *)
Lemma bcd_at_big i : 100 <= i -> bcd_at i = Raise IndexError.
Proof.
  intros H. unfold bcd_at. rewrite (proj2 (nth_error_None BCD (N.to_nat i))); [reflexivity|].
  change (length BCD) with 100%nat. lia.
Qed.
Lemma set_date_bad self y mo da dow : 2100 <= y < 65536 \/ y < 2000 -> sha1_set_date self y mo da dow = Raise IndexError.
Proof.
  intros H. unfold sha1_set_date.
  assert (E : 100 <= w16 (w16 y + (65536 - 2000))).
  { rewrite (w16_small y) by lia. unfold w16. destruct H as [H|H].
    - replace (y + (65536 - 2000)) with (y - 2000 + 1 * 65536) by lia. rewrite N.mod_add by discriminate. rewrite N.mod_small; lia.
    - rewrite N.mod_small; lia. }
  rewrite bcd_at_big by exact E. reflexivity.
Qed.

Lemma full_run s junk d t tm b : length junk = 80%nat -> valid_setup s ->
  valid_date d = true -> valid_time t = true -> valid_timer tm = true -> b < 2^32 ->
  snd (sha_calls
    (sha1_new junk (version_value (s_version s)) (language_value (s_language s)) (console_value (s_console s))
       (s_mac s) (s_soft_reset s) (s_vframe s) (s_gx s), [])
    (map op_of [CDate d; CTime t; CTimer tm; CButton b; CPrecompute; CHash]))
  = [ONone; ONone; ONone; ONone; ONone; OVal (initial_seed s d t tm b)].
Proof.
  intros J V Vd Vt Vtm Vb.
  pose proof (session_ok s V [CDate d; CTime t; CTimer tm; CButton b; CPrecompute; CHash] nothing_known _ (new_inv junk s J V)) as F.
  apply N.ltb_lt in Vb.
  cbn [promises promised learn keep k_date k_time k_timer k_button k_fresh nothing_known] in F.
  unfold keep in F. rewrite Vd, Vt, Vtm, Vb in F. cbn [is_some andb] in F.
  remember (snd (sha_calls _ _)) as o eqn:Eo. clear Eo.
  repeat match goal with H : Forall2 _ (_ :: _) ?o |- _ => inversion H; subst; clear H end.
  match goal with H : Forall2 _ [] ?o |- _ => inversion H; subst; clear H end.
  unfold meets in *. subst. reflexivity.
Qed.
