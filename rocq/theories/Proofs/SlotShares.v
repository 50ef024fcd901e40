(** How many seeds give each slot and each level. *)
From Coq Require Import NArith ZArith List Bool Lia.
From Verif Require Import Base.Word Base.WordLemmas Model.Gen3State Model.Gen3Area Spec.LcrngSpec Spec.Gen3Spec Spec.Gen3WildSpec Spec.CountSpec Spec.SlotShareSpec
  Proofs.Count Proofs.Frequency Proofs.Gen3AreaProofs Proofs.Gen3Draws Proofs.Gen3Props.
Import ListNotations.
Open Scope list_scope.
Open Scope N_scope.
Ltac Zify.zify_post_hook ::= idtac.

Lemma step_back s : s < 2^32 -> (0xEEB9EB65 * lcg 32 0x41C64E6D 0x6073 s + 0x0A3561A1) mod 2^32 = s.
Proof.
  intros H. unfold lcg. rewrite <- N.add_mod_idemp_l by discriminate. rewrite N.mul_mod_idemp_r by discriminate.
  rewrite N.add_mod_idemp_l by discriminate.
  replace (0xEEB9EB65 * (0x41C64E6D * s + 0x6073) + 0x0A3561A1)
    with (s + (1029054899 * s + 23025) * 2^32).
  - rewrite N.mod_add by discriminate. now apply N.mod_small.
  - change (2^32) with 4294967296. lia.
Qed.
Lemma rand_often v : v < 2^16 -> how_many (fun s => rand_at s 1 =? v) (2^32) = 2^16.
Proof.
  assert (E : forall s, rand_at s 1 = lcg 32 0x41C64E6D 0x6073 s / 2^16) by reflexivity.
  assert (L : forall s, lcg 32 0x41C64E6D 0x6073 s < 2^32) by (intros s; apply N.mod_lt; discriminate).
  apply (equally_often (fun s => rand_at s 1) (fun s => lcg 32 0x41C64E6D 0x6073 s mod 2^16)).
  - intros s _. rewrite E. apply (high_low 16 16), L.
  - intros s _. apply N.mod_lt. discriminate.
  - intros s t Hs Ht A B. rewrite !E in A. rewrite <- (step_back s Hs), <- (step_back t Ht). do 3 f_equal.
    rewrite (N.div_mod (lcg 32 0x41C64E6D 0x6073 s) (2^16)), A, B by discriminate. symmetry. apply N.div_mod. discriminate.
  - reflexivity.
Qed.
Lemma rand_lt16 s : rand_at s 1 < 2^16.
Proof. apply (high_low 16 16). apply N.mod_lt. discriminate. Qed.

(** A condition on the remainder. *)
Lemma how_many_mod q m a r : 0 < m -> r <= m -> how_many (fun h => q (h mod m)) (a * m + r) = a * how_many q m + how_many q r.
Proof.
  intros Hm. revert r. induction a as [|a IH] using N.peano_ind; intros r Hr.
  - rewrite !N.mul_0_l, !N.add_0_l. induction r as [|r IHr] using N.peano_ind; [reflexivity|].
    rewrite !how_many_succ, IHr by lia. rewrite N.mod_small by lia. reflexivity.
  - induction r as [|r IHr] using N.peano_ind.
    + rewrite N.add_0_r. replace (N.succ a * m) with (a * m + m) by lia. rewrite IH by lia.
      rewrite how_many_0. lia.
    + rewrite N.add_succ_r, !how_many_succ, IHr by lia.
      replace ((N.succ a * m + r) mod m) with r; [destruct (q r); lia|].
      rewrite N.add_comm, N.mod_add by lia. symmetry. apply N.mod_small. lia.
Qed.

Definition mark (r : N) (bounds : list Z) : N := slot_one_early bounds (Z.of_N r).
Lemma slot_rolls e k : (k < length (library_bounds e))%nat ->
  how_many (fun h => mark (h mod 100) (cumulative_of e) =? N.of_nat k) (2^16) = slot_share (library_bounds e) k.
Proof.
  intros Hk. change (2^16) with (655 * 100 + 36).
  rewrite (how_many_mod (fun r => mark r (cumulative_of e) =? N.of_nat k) 100 655 36) by lia.
  unfold library_bounds, cumulative_of in *.
  destruct (e =? Encounter_OLD_ROD); [|destruct (e =? Encounter_GOOD_ROD); [|destruct (e =? Encounter_SUPER_ROD);
    [|destruct (e =? Encounter_ROCK_SMASH); [|destruct (e =? Encounter_SURFING)]]]]; cbn [length] in Hk;
    do 12 (destruct k as [|k]; [vm_compute; reflexivity|try lia]); lia.
Qed.
Lemma gives_eq t s : gives (Ok t) s = true <-> t = s.
Proof.
  cbn [gives]. rewrite !andb_true_iff, !N.eqb_eq. destruct t as [a b c], s as [a' b' c']. cbn. split.
  - intros [[-> ->] ->]. reflexivity.
  - intros H. injection H as -> -> ->. auto.
Qed.
Lemma bounds_length area e : area_shape area -> length (slots_of area e) = length (library_bounds e).
Proof.
  intros (A & B & C & D & E & F). unfold slots_of, library_bounds.
  destruct (e =? Encounter_OLD_ROD); [exact D|]. destruct (e =? Encounter_GOOD_ROD); [exact E|].
  destruct (e =? Encounter_SUPER_ROD); [exact F|]. destruct (e =? Encounter_ROCK_SMASH); [exact C|].
  destruct (e =? Encounter_SURFING); [exact B|exact A].
Qed.
Lemma slot_frequency area e k slot : area_shape area -> NoDup (slots_of area e) -> nth_error (slots_of area e) k = Some slot ->
  how_many (fun s => gives (snd (calculate_hslot area s e)) slot) (2^32) = 2^16 * slot_share (library_bounds e) k.
Proof.
  intros S D K.
  assert (Lk : (k < length (slots_of area e))%nat) by (apply nth_error_Some; congruence).
  rewrite <- slot_rolls by (rewrite <- (bounds_length area e S); exact Lk).
  rewrite <- (function_of_value (fun h => mark (h mod 100) (cumulative_of e) =? N.of_nat k) (fun s => rand_at s 1) (2^32) (2^16) (2^16)).
  2:{ intros s _. apply rand_lt16. }
  2:{ exact rand_often. }
  apply how_many_ext. intros s Hs.
  pose proof (hslot_steps area e 0 s Hs) as H. change (steps 0 s) with s in H. rewrite H. cbn [snd]. clear H.
  change (0 + 1) with 1. unfold ordinary. fold (mark (rand_at s 1 mod 100) (cumulative_of e)).
  set (j := mark (rand_at s 1 mod 100) (cumulative_of e)).
  destruct (nth_error (slots_of area e) (N.to_nat j)) as [t|] eqn:J; cbn [opt_res].
  - apply eq_true_iff_eq. rewrite gives_eq, N.eqb_eq. split.
    + intros ->. rewrite <- (N2Nat.id j). f_equal. apply (proj1 (NoDup_nth_error _) D); [apply nth_error_Some; congruence|congruence].
    + intros E. rewrite E, Nat2N.id in J. congruence.
  - symmetry. apply N.eqb_neq. intros E. rewrite E, Nat2N.id in J. congruence.
Qed.
Lemma slot_share_wrong area e : area_shape area -> NoDup (slots_of area e) ->
  exists slot last, nth_error (slots_of area e) 0 = Some slot /\
    nth_error (slots_of area e) (length (slots_of area e) - 1) = Some last /\
  how_many (fun s => gives (snd (calculate_hslot area s e)) slot) (2^32) < 2^16 * slot_share (game_bounds e) 0 /\
  2^16 * slot_share (game_bounds e) (length (slots_of area e) - 1) <
  how_many (fun s => gives (snd (calculate_hslot area s e)) last) (2^32).
Proof.
  intros S D. pose proof (bounds_length area e S) as L.
  assert (P : (0 < length (library_bounds e))%nat /\
    slot_share (library_bounds e) 0 < slot_share (game_bounds e) 0 /\
    slot_share (game_bounds e) (length (library_bounds e) - 1) < slot_share (library_bounds e) (length (library_bounds e) - 1)).
  { unfold library_bounds, game_bounds.
    destruct (e =? Encounter_OLD_ROD); [|destruct (e =? Encounter_GOOD_ROD); [|destruct (e =? Encounter_SUPER_ROD);
    [|destruct (e =? Encounter_ROCK_SMASH); [|destruct (e =? Encounter_SURFING)]]]];
    (split; [cbn; lia|split; vm_compute; reflexivity]). }
  rewrite <- L in P. destruct P as (P0 & P1 & P2).
  destruct (nth_error (slots_of area e) 0) as [slot|] eqn:E0; [|apply nth_error_None in E0; lia].
  destruct (nth_error (slots_of area e) (length (slots_of area e) - 1)) as [last|] eqn:E1; [|apply nth_error_None in E1; lia].
  exists slot, last. split; [reflexivity|]. split; [reflexivity|].
  rewrite (slot_frequency area e 0 slot S D E0), (slot_frequency area e _ last S D E1).
  split; apply N.mul_lt_mono_pos_l; (reflexivity || assumption).
Qed.
Lemma level_frequency slot v : slot_ok slot -> s_min_level slot <= v <= s_max_level slot ->
  how_many (fun s => res_eqb (snd (calculate_level slot s false)) v) (2^32) =
  2^16 * with_remainder (2^16) (s_max_level slot - s_min_level slot + 1) (v - s_min_level slot).
Proof.
  intros S V.
  rewrite <- remainder_count by lia.
  rewrite <- (function_of_value (fun h => h mod (s_max_level slot - s_min_level slot + 1) =? v - s_min_level slot) (fun s => rand_at s 1) (2^32) (2^16) (2^16)).
  2:{ intros s _. apply rand_lt16. }
  2:{ exact rand_often. }
  apply how_many_ext. intros s Hs. rewrite (proj1 (level_plain slot s S Hs)). cbn [snd res_eqb].
  apply eq_true_iff_eq. rewrite !N.eqb_eq. lia.
Qed.

(** Equal slots. *)
Lemma total_front f n : total f (N.succ n) = f 0 + total (fun v => f (N.succ v)) n.
Proof.
  induction n as [|n IH] using N.peano_ind; [rewrite total_succ; cbn; lia|].
  rewrite total_succ, IH, total_succ. lia.
Qed.
Lemma total_share_eq s : forall bounds slots lo, length bounds = length slots ->
  total (fun v => if gives (opt_res (nth_error slots (N.to_nat v))) s
                  then share (nth (N.to_nat v) (lo :: bounds) 0) (nth (N.to_nat v) bounds 0) else 0) (N.of_nat (length slots)) =
  total_share lo bounds slots s.
Proof.
  induction bounds as [|b bounds IH]; intros [|t slots] lo L; try discriminate L; [reflexivity|].
  cbn [length]. rewrite Nat2N.inj_succ, total_front. cbn [total_share]. injection L as L. f_equal.
  rewrite <- (IH slots b L). apply total_ext. intros v _. rewrite N2Nat.inj_succ. reflexivity.
Qed.
Lemma mark_lt e h : mark (h mod 100) (cumulative_of e) < N.of_nat (length (library_bounds e)).
Proof.
  unfold mark. generalize (Z.of_N (h mod 100)). intros z. unfold cumulative_of, library_bounds.
  assert (G : forall l, (0 < length l)%nat -> slot_one_early l z < N.of_nat (length l)).
  { induction l as [|c [|d l] IH]; intros H; [cbn in H; lia|reflexivity|].
    change (slot_one_early (c :: d :: l) z) with (if (z + 1 <? c)%Z then 0 else 1 + slot_one_early (d :: l) z).
    specialize (IH ltac:(cbn; lia)). cbn [length] in *. destruct (z + 1 <? c)%Z; lia. }
  destruct (e =? Encounter_OLD_ROD); [|destruct (e =? Encounter_GOOD_ROD); [|destruct (e =? Encounter_SUPER_ROD);
    [|destruct (e =? Encounter_ROCK_SMASH); [|destruct (e =? Encounter_SURFING)]]]]; apply G; cbn; lia.
Qed.
Lemma slot_frequency_total area e slot : area_shape area ->
  how_many (fun s => gives (snd (calculate_hslot area s e)) slot) (2^32) =
  2^16 * total_share 0 (library_bounds e) (slots_of area e) slot.
Proof.
  intros S. pose proof (bounds_length area e S) as L.
  rewrite <- total_share_eq by (symmetry; exact L).
  transitivity (2^16 * how_many (fun h => gives (opt_res (nth_error (slots_of area e) (N.to_nat (mark (h mod 100) (cumulative_of e))))) slot) (2^16)).
  - rewrite <- (function_of_value (fun h => gives (opt_res (nth_error (slots_of area e) (N.to_nat (mark (h mod 100) (cumulative_of e))))) slot)
      (fun s => rand_at s 1) (2^32) (2^16) (2^16)).
    2:{ intros s _. apply rand_lt16. }
    2:{ exact rand_often. }
    apply how_many_ext. intros s Hs.
    pose proof (hslot_steps area e 0 s Hs) as H. change (steps 0 s) with s in H. rewrite H. reflexivity.
  - f_equal. rewrite (how_many_by_value (fun v => gives (opt_res (nth_error (slots_of area e) (N.to_nat v))) slot)
      (fun h => mark (h mod 100) (cumulative_of e)) (N.of_nat (length (slots_of area e))) (2^16)).
    2:{ intros h _. rewrite L. apply mark_lt. }
    apply total_ext. intros v Hv.
    pose proof (slot_rolls e (N.to_nat v) ltac:(lia)) as R. rewrite N2Nat.id in R. rewrite R. reflexivity.
Qed.
