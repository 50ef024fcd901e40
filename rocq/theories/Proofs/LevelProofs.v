(** Every slot at every level. *)
From Coq Require Import NArith ZArith List Bool Lia.
From Verif Require Import Base.Word Base.WordLemmas Model.Gen3State Model.Gen3Area Model.Gen3Wild
  Spec.LcrngSpec Spec.Gen3Spec Spec.Gen3WildSpec Spec.CountSpec Spec.WildRateSpec Spec.SisterSpec
  Proofs.Gen3AreaProofs Proofs.Gen3Pid Proofs.LcrngRecover Proofs.Gen3Recover Proofs.Gen3Props Proofs.WildRate Proofs.SpreadProofs
  Proofs.NatureSeeds Proofs.NatureProofs Proofs.LevelSeeds Spec.WildRateSpec.
Import ListNotations.
Open Scope list_scope.
Open Scope N_scope.
Ltac Zify.zify_post_hook ::= idtac.

Definition level_fits (v h u : N) : bool :=
  match five_rands u with
  | [r1; r2; r3; r4; _] => (N.shiftr u 32 =? 0) && N.odd r1 && (r2 mod 100 =? v) && (r3 =? h) && N.odd r4
  | _ => false
  end.
Fixpoint all_numbers (v h : N) (l : list N) : bool :=
  match l with [] => h =? 256 | u :: l' => if level_fits v h u then all_numbers v (N.succ h) l' else false end.
Definition even_fits (v u : N) : bool :=
  match five_rands u with
  | [r1; _; r3; _; _] => (N.shiftr u 32 =? 0) && (r1 mod 100 =? v) && negb (N.odd r3)
  | _ => false
  end.
Lemma level_seeds_ok : (length level_seeds =? length slot_rolls)%nat && forallb (fun '(v, l) => all_numbers v 0 l) (combine slot_rolls level_seeds) = true.
Proof. vm_compute. reflexivity. Qed.
Lemma even_seeds_ok : (length even_seeds =? length slot_rolls)%nat && forallb (fun '(v, u) => even_fits v u) (combine slot_rolls even_seeds) = true.
Proof. vm_compute. reflexivity. Qed.
Lemma all_numbers_in v : forall l h, all_numbers v h l = true -> forall k, h <= k < 256 -> exists u, level_fits v k u = true.
Proof.
  induction l as [|u l IH]; intros h H k K; cbn [all_numbers] in H.
  - apply N.eqb_eq in H. lia.
  - destruct (level_fits v h u) eqn:F; [|discriminate H]. destruct (N.eq_dec k h) as [->|D]; [now exists u|].
    apply (IH _ H). lia.
Qed.
Lemma small_seed u : (N.shiftr u 32 =? 0) = true -> u < 2^32.
Proof. intros U0. apply N.eqb_eq in U0; rewrite N.shiftr_div_pow2 in U0; apply N.div_small_iff in U0; [exact U0|discriminate]. Qed.
Lemma odd_mod a : N.odd a = true -> (a mod 2 =? 0) = false.
Proof. intros U. apply N.odd_spec in U. destruct U as [m ->]. rewrite N.add_comm, N.mul_comm, N.mod_add by discriminate. reflexivity. Qed.
Lemma even_mod a : N.odd a = false -> (a mod 2 =? 0) = true.
Proof.
  intros U. rewrite <- N.negb_even in U. apply negb_false_iff, N.even_spec in U. destruct U as [m ->].
  rewrite N.mul_comm, N.mod_mul by discriminate. reflexivity.
Qed.
Lemma level_seed v h : In v slot_rolls -> h < 256 -> exists u, u < 2^32 /\
  (rand_at u 1 mod 2 =? 0) = false /\ rand_at u 2 mod 100 = v /\ rand_at u 3 = h /\ (rand_at u 4 mod 2 =? 0) = false.
Proof.
  pose proof level_seeds_ok as E. revert E. generalize level_seeds. intros t E Hv Hh. apply andb_true_iff in E. destruct E as [L E].
  apply Nat.eqb_eq in L. destruct (combine_in v _ t L Hv) as [l H]. rewrite forallb_forall in E. specialize (E _ H). cbv beta iota in E.
  destruct (all_numbers_in v l 0 E h) as [u U]; [lia|]. exists u. unfold level_fits in U. rewrite five_rands_ok in U.
  rewrite !andb_true_iff in U. destruct U as [[[[U0 U1] U2] U3] U4]. apply N.eqb_eq in U2, U3.
  split; [apply small_seed, U0|]. split; [apply odd_mod, U1|]. split; [exact U2|]. split; [exact U3|apply odd_mod, U4].
Qed.
Lemma even_seed v : In v slot_rolls -> exists u, u < 2^32 /\ rand_at u 1 mod 100 = v /\ (rand_at u 3 mod 2 =? 0) = true.
Proof.
  pose proof even_seeds_ok as E. revert E. generalize even_seeds. intros t E Hv. apply andb_true_iff in E. destruct E as [L E].
  apply Nat.eqb_eq in L. destruct (combine_in v _ t L Hv) as [u H]. rewrite forallb_forall in E. specialize (E _ H). cbv beta iota in E.
  exists u. unfold even_fits in E. rewrite five_rands_ok in E. rewrite !andb_true_iff in E. destruct E as [[U0 U1] U2].
  apply N.eqb_eq in U1. apply negb_true_iff in U2. split; [apply small_seed, U0|]. split; [exact U1|apply even_mod, U2].
Qed.

(** A first state whose rands choose the roll and then the level. *)
Definition chooses (g : wildgen) (x : N -> N) (v : N) (slot : slot3) (level : N) : Prop :=
  (if attracting g then (x 1 mod 2 =? 0) = false /\ x 2 mod 100 = v else x 1 mod 100 = v) /\
  fst (level_choice x g slot (if attracting g then 2 else 1)) = level.
Lemma chooser g v slot level : In v slot_rolls -> slot_ok slot -> s_min_level slot <= level <= s_max_level slot ->
  exists u, u < 2^32 /\ chooses g (rand_at u) v slot level.
Proof.
  intros Hv (S1 & S2 & _) Hl. unfold chooses, level_choice. destruct (attracting g) eqn:At.
  - assert (L2 : (w_lead g =? Lead_PRESSURE) = false).
    { unfold attracting in At. apply orb_true_iff in At. destruct At as [At|At]; apply N.eqb_eq in At; rewrite At; reflexivity. }
    rewrite L2. destruct (level_seed v (level - s_min_level slot) Hv) as (u & Hu & A & B & C & _); [lia|].
    exists u. split; [exact Hu|]. split; [split; assumption|]. cbn [fst]. change (2 + 1) with 3. rewrite C.
    rewrite N.mod_small by lia. lia.
  - destruct (w_lead g =? Lead_PRESSURE).
    + destruct (N.eq_dec level (s_max_level slot)) as [->|D].
      * destruct (even_seed v Hv) as (u & Hu & A & B). exists u. split; [exact Hu|]. split; [exact A|].
        change (1 + 2) with 3. rewrite B. reflexivity.
      * destruct (level_seed v (level - s_min_level slot + 1) Hv) as (u & Hu & A & B & C & E); [lia|].
        assert (R : forall k, rand_at (steps 1 u) k = rand_at u (1 + k)) by (intros k; apply rand_at_steps).
        exists (steps 1 u). split; [apply steps_lt, Hu|]. rewrite !R. change (1 + 1) with 2. change (1 + 2) with 3. change (1 + 3) with 4.
        split; [exact B|]. rewrite E. cbn [fst]. rewrite C. rewrite N.mod_small by lia. lia.
    + destruct (level_seed v (level - s_min_level slot) Hv) as (u & Hu & A & B & C & E); [lia|].
      assert (R : forall k, rand_at (steps 1 u) k = rand_at u (1 + k)) by (intros k; apply rand_at_steps).
      exists (steps 1 u). split; [apply steps_lt, Hu|]. rewrite !R. change (1 + 1) with 2. change (1 + 2) with 3.
      split; [exact B|]. cbn [fst]. rewrite C. rewrite N.mod_small by lia. lia.
Qed.

Section One.
Variables (fuel : nat) (junk : list N) (g : wildgen) (area : area3) (initial delay : N).
Hypothesis Hj : length junk = 6%nat.
Hypothesis He : search_ends g area.
Hypothesis Hc : needs_check g = false.
Hypothesis Hf : 2^31 <= N.of_nat fuel.
Hypothesis Hd : initial + delay < 2^32.

Lemma slot_and_level k slot level : nth_error (slots_of area (w_encounter g)) k = Some slot -> s_min_level slot <= level <= s_max_level slot ->
  exists seed st, seed < 2^32 /\ wild_generate fuel junk g seed delay initial 1 area = Ok [st] /\
    g_species st = species_of slot /\ g_form st = form_of slot /\ g_level st = level.
Proof.
  intros Hk Hl. destruct (roll_for area (w_encounter g) k (proj1 (proj1 (proj1 He)))) as (v & V & Q); [apply nth_error_Some; rewrite Hk; discriminate|].
  assert (W : slot_ok slot).
  { pose proof (proj2 (proj1 (proj1 He)) (w_encounter g)) as F. rewrite Forall_forall in F. apply F. apply nth_error_In in Hk. exact Hk. }
  destruct (chooser g v slot level V W Hl) as (u & Hu & C1 & C2).
  destruct (steps_onto (initial + delay) u Hu) as (s & Hs & Es).
  pose proof (one_advance fuel junk g area initial delay Hj He Hf Hd s Hs) as O. cbv zeta in O.
  rewrite (proj1 (no_check g area _ Hc)) in O. destruct O as (mods & st & d & E & D & S).
  exists s, st. split; [exact Hs|]. split; [exact E|].
  change (after (initial + delay) s) with (steps (initial + delay) s) in D. rewrite Es in D.
  destruct S as (_ & _ & S1 & S2 & S3 & _). rewrite S1, S2, S3.
  destruct D as (_ & p1 & p2 & p3 & p4 & Sl & Le & _).
  rewrite (proj2 (no_check g area (fun _ => 0) Hc)) in Sl. set (x := rand_at u) in *. clearbody x.
  assert (Both : d_slot d = slot /\ p1 = if attracting g then 2 else 1).
  { unfold slot_choice in Sl. unfold attracting in *. destruct ((w_lead g =? Lead_MAGNET_PULL) || (w_lead g =? Lead_STATIC)).
    - destruct C1 as [O1 O2]. change (0 + 1) with 1 in Sl. change (1 + 1) with 2 in Sl. rewrite O1, O2, Q, Hk in Sl. cbn [andb] in Sl.
      injection Sl as Sl P1. split; now symmetry.
    - change (0 + 1) with 1 in Sl. rewrite C1, Q, Hk in Sl. injection Sl as Sl P1. split; now symmetry. }
  destruct Both as [B1 B2]. rewrite B1, B2 in Le. rewrite Le in C2. cbn [fst] in C2. rewrite B1. repeat split. exact C2.
Qed.
End One.
