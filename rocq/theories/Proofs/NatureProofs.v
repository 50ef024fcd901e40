(** Every slot with every nature. *)
From Coq Require Import NArith ZArith List Bool Lia.
From Verif Require Import Base.Word Base.WordLemmas Model.Gen3State Model.Gen3Area Model.Gen3Wild
  Spec.LcrngSpec Spec.Gen3Spec Spec.Gen3WildSpec Spec.CountSpec Spec.WildRateSpec Spec.SisterSpec
  Proofs.Gen3AreaProofs Proofs.Gen3Pid Proofs.LcrngRecover Proofs.Gen3Recover Proofs.Gen3Props Proofs.WildRate Proofs.SpreadProofs
  Proofs.NatureSeeds Spec.WildRateSpec.
Import ListNotations.
Open Scope list_scope.
Open Scope N_scope.
Ltac Zify.zify_post_hook ::= idtac.

Definition quick_next (s : N) : N := N.land (0x41C64E6D * s + 0x6073) 0xFFFFFFFF.
Lemma quick_next_ok s : quick_next s = lcg 32 0x41C64E6D 0x6073 s.
Proof. unfold quick_next, lcg. change 0xFFFFFFFF with (N.ones 32). apply N.land_ones. Qed.
Definition five_rands (u : N) : list N :=
  let s1 := quick_next u in let s2 := quick_next s1 in let s3 := quick_next s2 in let s4 := quick_next s3 in let s5 := quick_next s4 in
  map (fun s => N.shiftr s 16) [s1; s2; s3; s4; s5].
Lemma five_rands_ok u : five_rands u = [rand_at u 1; rand_at u 2; rand_at u 3; rand_at u 4; rand_at u 5].
Proof.
  unfold five_rands. cbv zeta. rewrite !quick_next_ok. cbn [map]. rewrite !N.shiftr_div_pow2. change (2^16) with 65536. reflexivity.
Qed.
Definition fits (mode : nat * nat * nat) (v n u : N) : bool :=
  let '(sp, op, np) := mode in let r := five_rands u in
  (N.shiftr u 32 =? 0) && (nth sp r 0 mod 100 =? v) && N.odd (nth op r 0) && (nth np r 0 mod 25 =? n).
Fixpoint all_natures (mode : nat * nat * nat) (v n : N) (l : list N) : bool :=
  match l with [] => n =? 25 | u :: l' => if fits mode v n u then all_natures mode v (N.succ n) l' else false end.
Definition all_rolls (mode : nat * nat * nat) (ls : list (list N)) : bool :=
  (length ls =? length slot_rolls)%nat && forallb (fun '(v, l) => all_natures mode v 0 l) (combine slot_rolls ls).
Lemma seeds_ok : (length nature_seeds =? length nature_modes)%nat && forallb (fun '(m, ls) => all_rolls m ls) (combine nature_modes nature_seeds) = true.
Proof. vm_compute. reflexivity. Qed.

Lemma all_natures_in mode v : forall l n, all_natures mode v n l = true -> forall k, n <= k < 25 -> exists u, fits mode v k u = true.
Proof.
  induction l as [|u l IH]; intros n H k K; cbn [all_natures] in H.
  - apply N.eqb_eq in H. lia.
  - destruct (fits mode v n u) eqn:F; [|discriminate H]. destruct (N.eq_dec k n) as [->|D]; [now exists u|].
    apply (IH _ H). lia.
Qed.
Lemma combine_in {A B} (x : A) (l : list A) : forall (l' : list B), length l' = length l -> In x l -> exists y, In (x, y) (combine l l').
Proof.
  induction l as [|a l IH]; intros [|b l'] L H; try discriminate L; [destruct H|]. injection L as L. destruct H as [->|H].
  - exists b. now left.
  - destruct (IH l' L H) as [y Hy]. exists y. now right.
Qed.
Lemma seed_for mode v n : In mode nature_modes -> In v slot_rolls -> n < 25 -> exists u, fits mode v n u = true.
Proof.
  pose proof seeds_ok as E. revert E. generalize nature_seeds. intros t E Hm Hv Hn. apply andb_true_iff in E. destruct E as [L E].
  apply Nat.eqb_eq in L. destruct (combine_in mode _ t L Hm) as [ls H]. rewrite forallb_forall in E. specialize (E _ H). cbv beta iota in E.
  apply andb_true_iff in E. destruct E as [L' E]. apply Nat.eqb_eq in L'. destruct (combine_in v _ ls L' Hv) as [l H'].
  rewrite forallb_forall in E. specialize (E _ H'). cbv beta iota in E. apply (all_natures_in mode v l 0 E). lia.
Qed.

(** Every slot has a roll. *)
Definition rolls_for (e : N) (k : nat) : bool :=
  existsb (fun v => (N.to_nat (slot_one_early (cumulative_of e) (Z.of_N v)) =? k)%nat) slot_rolls.
Lemma roll_for area e k : area_shape area -> (k < length (slots_of area e))%nat ->
  exists v, In v slot_rolls /\ N.to_nat (slot_one_early (cumulative_of e) (Z.of_N v)) = k.
Proof.
  intros (A & B & C & D & E & F) K. assert (R : rolls_for e k = true).
  { unfold rolls_for, slots_of, cumulative_of in *. destruct (e =? Encounter_OLD_ROD); [rewrite D in K|].
    2: destruct (e =? Encounter_GOOD_ROD); [rewrite E in K|].
    3: destruct (e =? Encounter_SUPER_ROD); [rewrite F in K|].
    4: destruct (e =? Encounter_ROCK_SMASH); [rewrite C in K|].
    5: destruct (e =? Encounter_SURFING); [rewrite B in K|rewrite A in K].
    all: do 12 (destruct k as [|k]; [try (exfalso; lia); vm_compute; reflexivity|]); exfalso; lia. }
  apply existsb_exists in R. destruct R as (v & V & Q). exists v. split; [exact V|]. now apply Nat.eqb_eq in Q.
Qed.

Section One.
Variables (fuel : nat) (junk : list N) (g : wildgen) (area : area3) (initial delay : N).
Hypothesis Hj : length junk = 6%nat.
Hypothesis He : search_ends g area.
Hypothesis Hc : needs_check g = false.
Hypothesis Hf : 2^31 <= N.of_nat fuel.
Hypothesis Hd : initial + delay < 2^32.

Definition attracting : bool := (w_lead g =? Lead_MAGNET_PULL) || (w_lead g =? Lead_STATIC).
Definition mode_of : nat * nat * nat :=
  if attracting then if is_rse_safari_zone area (w_game g) then (1, 0, 4)%nat else (1, 0, 3)%nat
  else if w_lead g =? Lead_PRESSURE then if is_rse_safari_zone area (w_game g) then (0, 3, 4)%nat else (0, 2, 3)%nat
  else if w_lead g <=? Lead_SYNCHRONIZE_QUIRKY then if is_rse_safari_zone area (w_game g) then (0, 3, 4)%nat else (0, 2, 3)%nat
  else if is_rse_safari_zone area (w_game g) then (0, 2, 3)%nat else (0, 1, 2)%nat.
Lemma mode_in : In mode_of nature_modes.
Proof. unfold mode_of, nature_modes. repeat match goal with |- context [if ?b then _ else _] => destruct b end; cbn; auto 9. Qed.

Lemma slot_and_nature k slot n : nth_error (slots_of area (w_encounter g)) k = Some slot -> n < 25 ->
  exists seed st, seed < 2^32 /\ wild_generate fuel junk g seed delay initial 1 area = Ok [st] /\
    g_species st = species_of slot /\ g_form st = form_of slot /\ s_min_level slot <= g_level st <= s_max_level slot /\ g_nature st = n.
Proof.
  intros Hk Hn. destruct (roll_for area (w_encounter g) k (proj1 (proj1 (proj1 He)))) as (v & V & Q); [apply nth_error_Some; rewrite Hk; discriminate|].
  destruct (seed_for mode_of v n mode_in V Hn) as (u & U). unfold fits in U. destruct mode_of as [[sp op] np] eqn:M.
  rewrite !andb_true_iff in U. destruct U as [[[U0 U1] U2] U3]. rewrite five_rands_ok in U1, U2, U3.
  assert (Hu : u < 2^32) by (apply N.eqb_eq in U0; rewrite N.shiftr_div_pow2 in U0; apply N.div_small_iff in U0; [exact U0|discriminate]).
  destruct (steps_onto (initial + delay) u Hu) as (s & Hs & Es).
  pose proof (one_advance fuel junk g area initial delay Hj He Hf Hd s Hs) as O. cbv zeta in O.
  rewrite (proj1 (no_check g area _ Hc)) in O. destruct O as (mods & st & d & E & D & S).
  exists s, st. split; [exact Hs|]. split; [exact E|].
  change (after (initial + delay) s) with (steps (initial + delay) s) in D. rewrite Es in D.
  destruct (drawn_nature g area He _ _ _ Hc D) as (p & Na).
  destruct S as (_ & _ & S1 & S2 & S3 & _ & S4 & _). rewrite S1, S2, S3, S4.
  destruct D as (_ & p1 & p2 & p3 & p4 & Sl & Le & _).
  rewrite (proj2 (no_check g area (fun _ => 0) Hc)) in Sl.
  apply N.eqb_eq in U1, U3. assert (U2' : nth op [rand_at u 1; rand_at u 2; rand_at u 3; rand_at u 4; rand_at u 5] 0 mod 2 =? 0 = false).
  { apply N.odd_spec in U2. destruct U2 as [m ->]. rewrite N.add_comm, N.mul_comm, N.mod_add by discriminate. reflexivity. }
  clear U2 U0. set (x := rand_at u) in *. clearbody x.
  assert (Both : d_slot d = slot /\ d_nature d = n).
  { unfold slot_choice in Sl. unfold nature_choice, before_nature in Na. unfold mode_of, attracting in M.
    destruct ((w_lead g =? Lead_MAGNET_PULL) || (w_lead g =? Lead_STATIC)) eqn:At.
    - assert (L : (w_lead g <=? Lead_SYNCHRONIZE_QUIRKY) = false /\ (w_lead g =? Lead_PRESSURE) = false).
      { apply orb_true_iff in At. destruct At as [At|At]; apply N.eqb_eq in At; rewrite At; split; reflexivity. }
      destruct L as [L1 L2]. rewrite L1, L2 in Na.
      assert (O1 : (x (0 + 1) mod 2 =? 0) = false /\ x (0 + 1 + 1) mod 100 = v).
      { destruct (is_rse_safari_zone _ _); injection M as <- <- <-; split; assumption. }
      destruct O1 as [O1 O2]. rewrite O1, O2, Q, Hk in Sl. cbn [andb] in Sl. injection Sl as Sl _. split; [now symmetry|].
      destruct (is_rse_safari_zone _ _); injection M as <- <- <-; injection Na as <- _; exact U3.
    - assert (O2 : x (0 + 1) mod 100 = v).
      { destruct (w_lead g =? Lead_PRESSURE), (w_lead g <=? _), (is_rse_safari_zone _ _); injection M as <- <- <-; exact U1. }
      rewrite O2, Q, Hk in Sl. injection Sl as Sl _. split; [now symmetry|].
      destruct (w_lead g =? Lead_PRESSURE) eqn:Pr.
      + assert (L : (w_lead g <=? Lead_SYNCHRONIZE_QUIRKY) = false) by (apply N.eqb_eq in Pr; rewrite Pr; reflexivity). rewrite L in Na.
        destruct (is_rse_safari_zone _ _); injection M as <- <- <-; injection Na as <- _; exact U3.
      + destruct (w_lead g <=? Lead_SYNCHRONIZE_QUIRKY).
        * destruct (is_rse_safari_zone _ _); injection M as <- <- <-; cbn [nth] in U2'.
          -- change (1 + 1 + 1 + 1) with 4 in Na. rewrite U2' in Na. injection Na as <- _. exact U3.
          -- change (1 + 1 + 0 + 1) with 3 in Na. rewrite U2' in Na. injection Na as <- _. exact U3.
        * destruct (is_rse_safari_zone _ _); injection M as <- <- <-; injection Na as <- _; exact U3. }
  destruct Both as [B1 B2]. rewrite B1, B2. rewrite B1 in Le. split; [reflexivity|]. split; [reflexivity|]. split; [|reflexivity].
  assert (W : slot_ok slot).
  { pose proof (proj2 (proj1 (proj1 He)) (w_encounter g)) as F. rewrite Forall_forall in F. apply F. apply nth_error_In in Hk. exact Hk. }
  destruct W as (W1 & _ & _). unfold level_choice in Le.
  pose proof (N.mod_lt (x (p1 + 1)) (s_max_level slot - s_min_level slot + 1) ltac:(lia)) as R.
  set (r := x (p1 + 1) mod _) in *. clearbody r.
  destruct (w_lead g =? Lead_PRESSURE); [destruct (_ =? 0)|]; injection Le as <- _; lia.
Qed.
End One.
