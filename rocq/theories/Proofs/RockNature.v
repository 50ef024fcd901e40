(** Every slot of Rock Smash in Ruby, Sapphire and Emerald with every nature. *)
From Coq Require Import NArith ZArith List Bool Lia.
From Verif Require Import Base.Word Base.WordLemmas Model.Gen3State Model.Gen3Area Model.Gen3Wild
  Spec.LcrngSpec Spec.Gen3Spec Spec.Gen3WildSpec Spec.CountSpec Spec.WildRateSpec Spec.SisterSpec
  Proofs.Gen3AreaProofs Proofs.Gen3Pid Proofs.LcrngRecover Proofs.Gen3Recover Proofs.Gen3Props Proofs.WildRate Proofs.SpreadProofs
  Proofs.NatureSeeds Proofs.NatureProofs Spec.WildRateSpec.
Import ListNotations.
Open Scope list_scope.
Open Scope N_scope.
Ltac Zify.zify_post_hook ::= idtac.

Definition six_rands (u : N) : list N := let s1 := quick_next u in N.shiftr s1 16 :: five_rands s1.
Lemma six_rands_ok u : six_rands u = [rand_at u 1; rand_at u 2; rand_at u 3; rand_at u 4; rand_at u 5; rand_at u 6].
Proof.
  unfold six_rands. cbv zeta. rewrite five_rands_ok, quick_next_ok, N.shiftr_div_pow2. change (2^16) with 65536.
  assert (R : forall k, rand_at (lcg 32 0x41C64E6D 0x6073 u) k = rand_at u (1 + k)).
  { intros k. rewrite <- rand_at_steps. reflexivity. }
  rewrite !R. reflexivity.
Qed.
Definition rock_fits (mode : nat * nat * nat) (v n u : N) : bool :=
  let '(sp, op, np) := mode in let r := six_rands u in
  (N.shiftr u 32 =? 0) && (nth 0 r 0 mod 2880 <? 16) && (nth sp r 0 mod 100 =? v) && N.odd (nth op r 0) && (nth np r 0 mod 25 =? n).
Fixpoint rock_natures (mode : nat * nat * nat) (v n : N) (l : list N) : bool :=
  match l with [] => n =? 25 | u :: l' => if rock_fits mode v n u then rock_natures mode v (N.succ n) l' else false end.
Definition all_rock_rolls (mode : nat * nat * nat) (ls : list (list N)) : bool :=
  (length ls =? length rock_rolls)%nat && forallb (fun '(v, l) => rock_natures mode v 0 l) (combine rock_rolls ls).
Lemma rock_seeds_ok : (length rock_seeds =? length rock_modes)%nat && forallb (fun '(m, ls) => all_rock_rolls m ls) (combine rock_modes rock_seeds) = true.
Proof. vm_compute. reflexivity. Qed.
Lemma rock_natures_in mode v : forall l n, rock_natures mode v n l = true -> forall k, n <= k < 25 -> exists u, rock_fits mode v k u = true.
Proof.
  induction l as [|u l IH]; intros n H k K; cbn [rock_natures] in H.
  - apply N.eqb_eq in H. lia.
  - destruct (rock_fits mode v n u) eqn:F; [|discriminate H]. destruct (N.eq_dec k n) as [->|D]; [now exists u|].
    apply (IH _ H). lia.
Qed.
Lemma rock_seed_for mode v n : In mode rock_modes -> In v rock_rolls -> n < 25 -> exists u, rock_fits mode v n u = true.
Proof.
  pose proof rock_seeds_ok as E. revert E. generalize rock_seeds. intros t E Hm Hv Hn. apply andb_true_iff in E. destruct E as [L E].
  apply Nat.eqb_eq in L. destruct (combine_in mode _ t L Hm) as [ls H]. rewrite forallb_forall in E. specialize (E _ H). cbv beta iota in E.
  apply andb_true_iff in E. destruct E as [L' E]. apply Nat.eqb_eq in L'. destruct (combine_in v _ ls L' Hv) as [l H'].
  rewrite forallb_forall in E. specialize (E _ H'). cbv beta iota in E. apply (rock_natures_in mode v l 0 E). lia.
Qed.
Lemma rock_roll_for area k : area_shape area -> (k < length (slots_of area Encounter_ROCK_SMASH))%nat ->
  exists v, In v rock_rolls /\ N.to_nat (slot_one_early (cumulative_of Encounter_ROCK_SMASH) (Z.of_N v)) = k.
Proof.
  intros (_ & _ & C & _) K. change (slots_of area Encounter_ROCK_SMASH) with (a_rock area) in K. rewrite C in K.
  assert (R : existsb (fun v => (N.to_nat (slot_one_early (cumulative_of Encounter_ROCK_SMASH) (Z.of_N v)) =? k)%nat) rock_rolls = true).
  { do 5 (destruct k as [|k]; [vm_compute; reflexivity|]); exfalso; lia. }
  apply existsb_exists in R. destruct R as (v & V & Q). exists v. split; [exact V|]. now apply Nat.eqb_eq in Q.
Qed.

Section One.
Variables (fuel : nat) (junk : list N) (g : wildgen) (area : area3) (initial delay : N).
Hypothesis Hj : length junk = 6%nat.
Hypothesis He : search_ends g area.
Hypothesis Hc : needs_check g = true.
Hypothesis Hr : 0 < a_rock_rate area.
Hypothesis Hf : 2^31 <= N.of_nat fuel.
Hypothesis Hd : initial + delay < 2^32.

Definition rock_mode : nat * nat * nat := let '(a, b, c) := mode_of g area in (S a, S b, S c).
Lemma rock_mode_in : In rock_mode rock_modes.
Proof. unfold rock_mode, mode_of, rock_modes. repeat match goal with |- context [if ?b then _ else _] => destruct b end; cbn; auto 9. Qed.

Lemma rock_slot_and_nature k slot n : nth_error (slots_of area (w_encounter g)) k = Some slot -> n < 25 ->
  exists seed st, seed < 2^32 /\ wild_generate fuel junk g seed delay initial 1 area = Ok [st] /\
    g_species st = species_of slot /\ g_form st = form_of slot /\ s_min_level slot <= g_level st <= s_max_level slot /\ g_nature st = n.
Proof.
  intros Hk Hn. assert (Ee : w_encounter g = Encounter_ROCK_SMASH) by (unfold needs_check in Hc; apply andb_true_iff in Hc; destruct Hc as [_ H]; now apply N.eqb_eq in H).
  destruct (rock_roll_for area k (proj1 (proj1 (proj1 He)))) as (v & V & Q); [rewrite <- Ee; apply nth_error_Some; rewrite Hk; discriminate|].
  rewrite <- Ee in Q. destruct (rock_seed_for rock_mode v n rock_mode_in V Hn) as (u & U). unfold rock_fits in U. destruct rock_mode as [[sp op] np] eqn:M.
  rewrite !andb_true_iff in U. destruct U as [[[[U0 U4] U1] U2] U3]. rewrite six_rands_ok in U1, U2, U3, U4.
  assert (Hu : u < 2^32) by (apply N.eqb_eq in U0; rewrite N.shiftr_div_pow2 in U0; apply N.div_small_iff in U0; [exact U0|discriminate]).
  destruct (steps_onto (initial + delay) u Hu) as (s & Hs & Es).
  pose proof (one_advance fuel junk g area initial delay Hj He Hf Hd s Hs) as O. cbv zeta in O.
  change (after (initial + delay) s) with (steps (initial + delay) s) in O. rewrite Es in O.
  apply N.ltb_lt in U4. cbn [nth] in U4.
  assert (Cf : check_fails (rand_at u) g area = false).
  { unfold check_fails. rewrite Hc. cbn [andb]. apply N.leb_gt. set (y := rand_at u 1 mod 2880) in *. clearbody y. clear - U4 Hr. lia. }
  rewrite Cf in O. destruct O as (mods & st & d & E & D & S).
  exists s, st. split; [exact Hs|]. split; [exact E|].
  destruct S as (_ & _ & S1 & S2 & S3 & _ & S4 & _). rewrite S1, S2, S3, S4.
  destruct D as (_ & p1 & p2 & p3 & p4 & Sl & Le & _ & Ch & P4 & Na & _).
  unfold charm_choice in Ch. rewrite (not_charming g area He) in Ch. injection Ch as _ <-.
  assert (Af : after_check g = 1) by (unfold after_check; rewrite Hc; reflexivity). rewrite Af in Sl.
  apply N.eqb_eq in U1, U3. assert (U2' : nth op [rand_at u 1; rand_at u 2; rand_at u 3; rand_at u 4; rand_at u 5; rand_at u 6] 0 mod 2 =? 0 = false).
  { apply N.odd_spec in U2. destruct U2 as [m ->]. rewrite N.add_comm, N.mul_comm, N.mod_add by discriminate. reflexivity. }
  clear U2 U0 U4 Cf. set (x := rand_at u) in *. clearbody x.
  assert (E2 : p2 = p1 + if w_lead g =? Lead_PRESSURE then 2 else 1).
  { unfold level_choice in Le. destruct (w_lead g =? Lead_PRESSURE); injection Le as _ <-; reflexivity. }
  assert (Both : d_slot d = slot /\ d_nature d = n).
  { unfold slot_choice in Sl. unfold nature_choice in Na. unfold rock_mode, mode_of, attracting in M.
    destruct ((w_lead g =? Lead_MAGNET_PULL) || (w_lead g =? Lead_STATIC)) eqn:At.
    - assert (L : (w_lead g <=? Lead_SYNCHRONIZE_QUIRKY) = false /\ (w_lead g =? Lead_PRESSURE) = false).
      { apply orb_true_iff in At. destruct At as [At|At]; apply N.eqb_eq in At; rewrite At; split; reflexivity. }
      destruct L as [L1 L2]. rewrite L1 in Na. rewrite L2 in E2.
      assert (O1 : (x (1 + 1) mod 2 =? 0) = false /\ x (1 + 1 + 1) mod 100 = v).
      { destruct (is_rse_safari_zone _ _); injection M as <- <- <-; split; assumption. }
      destruct O1 as [O1 O2]. rewrite O1, O2, Q, Hk in Sl. cbn [andb] in Sl. injection Sl as Sl P1. split; [now symmetry|].
      rewrite E2, <- P1 in P4. rewrite P4 in Na.
      destruct (is_rse_safari_zone _ _); injection M as <- <- <-; injection Na as <- _; exact U3.
    - assert (O2 : x (1 + 1) mod 100 = v).
      { destruct (w_lead g =? Lead_PRESSURE), (w_lead g <=? _), (is_rse_safari_zone _ _); injection M as <- <- <-; exact U1. }
      rewrite O2, Q, Hk in Sl. injection Sl as Sl P1. split; [now symmetry|]. rewrite E2, <- P1 in P4.
      destruct (w_lead g =? Lead_PRESSURE) eqn:Pr.
      + assert (L : (w_lead g <=? Lead_SYNCHRONIZE_QUIRKY) = false) by (apply N.eqb_eq in Pr; rewrite Pr; reflexivity). rewrite L, P4 in Na.
        destruct (is_rse_safari_zone _ _); injection M as <- <- <-; injection Na as <- _; exact U3.
      + destruct (w_lead g <=? Lead_SYNCHRONIZE_QUIRKY).
        * destruct (is_rse_safari_zone _ _); injection M as <- <- <-; cbn [nth] in U2'.
          -- assert (P5 : p4 + 1 = 5 /\ p4 + 2 = 6) by (rewrite P4; split; reflexivity). destruct P5 as [P5 P6]. rewrite P5, P6, U2' in Na. injection Na as <- _. exact U3.
          -- assert (P5 : p4 + 1 = 4 /\ p4 + 2 = 5) by (rewrite P4; split; reflexivity). destruct P5 as [P5 P6]. rewrite P5, P6, U2' in Na. injection Na as <- _. exact U3.
        * rewrite P4 in Na. destruct (is_rse_safari_zone _ _); injection M as <- <- <-; injection Na as <- _; exact U3. }
  destruct Both as [B1 B2]. rewrite B1, B2. rewrite B1 in Le. split; [reflexivity|]. split; [reflexivity|]. split; [|reflexivity].
  assert (W : slot_ok slot).
  { pose proof (proj2 (proj1 (proj1 He)) (w_encounter g)) as F. rewrite Forall_forall in F. apply F. apply nth_error_In in Hk. exact Hk. }
  destruct W as (W1 & _ & _). unfold level_choice in Le.
  pose proof (N.mod_lt (x (p1 + 1)) (s_max_level slot - s_min_level slot + 1) ltac:(clear; lia)) as R.
  set (r := x (p1 + 1) mod _) in *. clearbody r. clear - Le W1 R.
  destruct (w_lead g =? Lead_PRESSURE); [destruct (_ =? 0)|]; injection Le as <- _; lia.
Qed.
End One.
