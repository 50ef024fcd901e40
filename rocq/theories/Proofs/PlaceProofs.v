(** Which PIDs and IVs can be met. *)
From Coq Require Import NArith ZArith List Bool Lia.
From Verif Require Import Base.Word Base.WordLemmas Model.Gen3State Model.Gen3Area Model.Gen3Wild
  Spec.LcrngSpec Spec.Gen3Spec Spec.Gen3WildSpec Spec.CountSpec Spec.WildRateSpec Spec.SisterSpec Spec.PlaceSpec
  Proofs.Gen3AreaProofs Proofs.Gen3Pid Proofs.LcrngRecover Proofs.Gen3Recover Proofs.Gen3Props Proofs.WildRate Proofs.SpreadProofs.
Import ListNotations.
Open Scope list_scope.
Open Scope N_scope.
Ltac Zify.zify_post_hook ::= idtac.

Lemma met_one g g' t pid pid' ivs ivs' : same_natures g g' -> w_method g = w_method g' ->
  met g t pid ivs -> met g' t pid' ivs' -> pid = pid' /\ ivs = ivs'.
Proof.
  intros S M (n & f & k & A & B & C & D & E) (n' & f' & k' & A' & B' & C' & D' & E').
  assert (Na : nature_choice (rand_at t) g 0 = nature_choice (rand_at t) g' 0).
  { unfold nature_choice. destruct S as [-> | [L L']]; [reflexivity|].
    apply N.leb_gt in L, L'. now rewrite L, L'. }
  rewrite Na, A' in A. injection A as <- <-.
  assert (K : k = k').
  { destruct (N.lt_trichotomy k k') as [L|[L|L]]; [exfalso|exact L|exfalso].
    - apply (B' k L). rewrite <- C. exact D.
    - apply (B k' L). rewrite <- C'. exact D'. }
  subst k'. rewrite C, C', E, E'. split; [reflexivity|]. unfold iv2_pos, iv1_pos. rewrite M. reflexivity.
Qed.

Section One.
Variables (fuel : nat) (junk : list N) (g : wildgen) (area : area3) (initial delay : N).
Hypothesis Hj : length junk = 6%nat.
Hypothesis Hp : plain_place g area.
Hypothesis Hf : 2^31 <= N.of_nat fuel.
Hypothesis Hd : initial + delay < 2^32.

Lemma one_met s : s < 2^32 -> exists st, wild_generate fuel junk g s delay initial 1 area = Ok [st] /\
  met g (steps (initial + delay + before_nature g area) s) (g_pid st) (g_ivs st).
Proof.
  intros Hs. destruct Hp as (He & Hc & Hu).
  pose proof (one_advance fuel junk g area initial delay Hj He Hf Hd s Hs) as O. cbv zeta in O.
  rewrite (proj1 (no_check g area _ Hc)) in O. destruct O as (_ & st & _ & E & _ & _). exists st. split; [exact E|].
  assert (Hm : initial + 1 <= 2^32) by (clear - Hd; apply N.le_succ_l in Hd; rewrite N.add_1_r; etransitivity; [|exact Hd]; apply -> N.succ_le_mono; apply N.le_add_r).
  destruct (generate_states _ _ _ _ _ _ _ _ _ Hj (proj1 He) Hs Hd Hm E 0 st eq_refl) as (mods & d & M & D & S & I & _).
  rewrite !N.add_0_r in D, S. set (b := before_nature g area) in *.
  assert (R : forall k, rand_at (steps (initial + delay + b) s) k = rand_at (lcg_steps 32 0x41C64E6D 0x6073 (initial + delay) s) (b + k)).
  { intros k. fold (steps (initial + delay) s). rewrite !rand_at_steps. f_equal. lia. }
  set (x := rand_at (lcg_steps 32 0x41C64E6D 0x6073 (initial + delay) s)) in *. clearbody x.
  set (t := steps (initial + delay + b) s) in *. clearbody t.
  rewrite Forall_forall in Hu. specialize (Hu _ I).
  destruct S as (_ & Ep & _ & _ & _ & Ei & _).
  destruct D as (_ & p1 & p2 & p3 & p4 & Sl & Le & _ & Ch & P4 & Na & Tr & Dp & Ok' & Di).
  rewrite (proj2 (no_check g area (fun _ => 0) Hc)) in Sl. unfold charm_choice in Ch. rewrite (not_charming g area He) in Ch. injection Ch as Ch <-.
  assert (E1 : p1 = if (w_lead g =? Lead_MAGNET_PULL) || (w_lead g =? Lead_STATIC) then 2 else 1).
  { unfold slot_choice in Sl. destruct (_ || _); [destruct (_ && _)|]; injection Sl as _ <-; reflexivity. }
  assert (E2 : p2 = p1 + if w_lead g =? Lead_PRESSURE then 2 else 1).
  { unfold level_choice in Le. destruct (w_lead g =? Lead_PRESSURE); injection Le as _ <-; reflexivity. }
  assert (E4 : p4 = b) by (rewrite P4, E2, E1; reflexivity). rewrite E4 in Na. clear P4 E1 E2 E4 Sl Le.
  assert (F : exists f, d_first d = b + f /\ nature_choice (rand_at t) g 0 = (d_nature d, f)).
  { unfold nature_choice in Na |- *. rewrite !R. destruct (w_lead g <=? Lead_SYNCHRONIZE_QUIRKY).
    - change (b + (0 + 1)) with (b + 1). change (b + (0 + 2)) with (b + 2). destruct (x (b + 1) mod 2 =? 0); injection Na as <- <-; eexists; split; reflexivity.
    - change (b + (0 + 1)) with (b + 1). injection Na as <- <-. eexists. split; reflexivity. }
  destruct F as (f & F1 & F2). exists (d_nature d), f, (d_tries d). split; [exact F2|].
  assert (Pa : forall j, pid_at (rand_at t) (f + j) = pid_at x (d_first d + j)).
  { intros j. unfold pid_at. rewrite !R, F1. f_equal; [f_equal; lia|f_equal; f_equal; lia]. }
  assert (Acc : forall pid, pid mod 25 = d_nature d -> accepts g (pi_gender_ratio (d_info d)) (d_nature d) (species_of (d_slot d)) (form_of (d_slot d)) (d_charm d) pid).
  { intros pid H. split; [exact H|]. split; [rewrite <- Ch; discriminate|]. intros K. exfalso. exact (Hu K). }
  split; [intros j Hk K; apply (Tr j Hk); apply Acc; rewrite <- Pa; exact K|].
  split; [rewrite Ep, Dp, Pa; reflexivity|]. split; [rewrite Ep; apply Ok'|].
  rewrite Ei, Di, !R, F1. unfold iv2_pos, iv1_pos. f_equal; f_equal; lia.
Qed.

(** Any seed [t] can be what the slot and level leave. *)
Lemma some_seed t : t < 2^32 -> exists s, s < 2^32 /\ steps (initial + delay + before_nature g area) s = t.
Proof. apply steps_onto. Qed.
Lemma met_iff pid ivs : can_be_met fuel junk g area delay initial pid ivs <-> exists t, t < 2^32 /\ met g t pid ivs.
Proof.
  split.
  - intros (s & st & Hs & E & <- & <-). destruct (one_met s Hs) as (st' & E' & Mt). rewrite E in E'. injection E' as <-.
    eexists. split; [|exact Mt]. apply steps_lt. exact Hs.
  - intros (t & Ht & Mt). destruct (some_seed t Ht) as (s & Hs & <-). destruct (one_met s Hs) as (st & E & Mt').
    destruct (met_one g g _ _ _ _ _ (or_introl eq_refl) eq_refl Mt Mt') as [-> ->]. exists s, st. auto.
Qed.
End One.

Lemma met_same g g' t pid ivs : same_natures g g' -> w_method g = w_method g' -> met g t pid ivs -> met g' t pid ivs.
Proof.
  intros S M (n & f & k & A & B & C & D & E). exists n, f, k.
  assert (Na : nature_choice (rand_at t) g 0 = nature_choice (rand_at t) g' 0).
  { unfold nature_choice. destruct S as [-> | [L L']]; [reflexivity|]. apply N.leb_gt in L, L'. now rewrite L, L'. }
  rewrite <- Na. unfold iv2_pos, iv1_pos in *. rewrite <- M. auto.
Qed.
Lemma place_independent fuel junk fuel' junk' g area delay initial g' area' delay' initial' pid ivs :
  length junk = 6%nat -> length junk' = 6%nat -> 2^31 <= N.of_nat fuel -> 2^31 <= N.of_nat fuel' ->
  initial + delay < 2^32 -> initial' + delay' < 2^32 -> plain_place g area -> plain_place g' area' ->
  same_natures g g' -> w_method g = w_method g' ->
  (can_be_met fuel junk g area delay initial pid ivs <-> can_be_met fuel' junk' g' area' delay' initial' pid ivs).
Proof.
  intros J J' F F' D D' P P' S M. rewrite (met_iff fuel junk g area initial delay J P F D), (met_iff fuel' junk' g' area' initial' delay' J' P' F' D').
  assert (S' : same_natures g' g) by (destruct S as [S|[A B]]; [left; now symmetry|right; now split]).
  split; intros (t & Ht & H); exists t; (split; [exact Ht|]); [exact (met_same g g' t pid ivs S M H)|exact (met_same g' g t pid ivs S' (eq_sym M) H)].
Qed.

(** The PID right after the nature. *)
Lemma at_once g t n f : nature_choice (rand_at t) g 0 = (n, f) -> pid_at (rand_at t) f mod 25 = n ->
  met g t (pid_at (rand_at t) f) (ivs_from (rand_at t (iv1_pos g (f + 2))) (rand_at t (iv2_pos g (f + 2)))).
Proof.
  intros A B. exists n, f, 0. split; [exact A|]. split; [intros j Hj; lia|]. rewrite N.mul_0_r, N.add_0_r. auto.
Qed.
Definition ivs_after (g : wildgen) (t : N) : list N := ivs_from (rand_at t (iv1_pos g 2)) (rand_at t (iv2_pos g 2)).
Lemma sync_meets fuel junk g area delay initial t :
  length junk = 6%nat -> 2^31 <= N.of_nat fuel -> initial + delay < 2^32 -> plain_place g area ->
  t < 2^32 -> w_lead g = first_pid t mod 25 -> t / 65536 mod 2 = 0 ->
  can_be_met fuel junk g area delay initial (first_pid t) (ivs_after g t).
Proof.
  intros J F D P T L Ev. apply (met_iff fuel junk g area initial delay J P F D).
  destruct (steps_onto 1 t T) as (u & Hu & E). exists u. split; [exact Hu|].
  assert (R : forall k, rand_at u (1 + k) = rand_at t k) by (intros k; rewrite <- E, rand_at_steps; reflexivity).
  assert (R0 : rand_at u 1 = t / 65536) by (rewrite <- E; reflexivity).
  assert (Pt : pid_at (rand_at u) 1 = first_pid t).
  { unfold pid_at, first_pid. change (1 + 1) with 2. change (1 + 2) with 3.
    pose proof (R 1) as R1. pose proof (R 2) as R2. change (1 + 1) with 2 in R1. change (1 + 2) with 3 in R2. now rewrite R1, R2. }
  assert (A : met g u (pid_at (rand_at u) 1) (ivs_from (rand_at u (iv1_pos g (1 + 2))) (rand_at u (iv2_pos g (1 + 2))))).
  { apply (at_once g u (w_lead g) 1); [|rewrite Pt; now symmetry].
    unfold nature_choice. change (0 + 1) with 1. rewrite R0, Ev. change (0 =? 0) with true. cbv iota.
    assert (B : w_lead g <=? Lead_SYNCHRONIZE_QUIRKY = true).
    { rewrite L. apply N.leb_le. assert (Q : first_pid t mod 25 < 25) by (apply N.mod_lt; discriminate). unfold Lead_SYNCHRONIZE_QUIRKY. lia. }
    now rewrite B. }
  rewrite Pt in A. unfold ivs_after. rewrite <- (R (iv1_pos g 2)), <- (R (iv2_pos g 2)).
  replace (1 + iv1_pos g 2) with (iv1_pos g (1 + 2)) by (unfold iv1_pos; lia).
  replace (1 + iv2_pos g 2) with (iv2_pos g (1 + 2)) by (unfold iv2_pos, iv1_pos; lia). exact A.
Qed.
Lemma plain_meets fuel junk g area delay initial t :
  length junk = 6%nat -> 2^31 <= N.of_nat fuel -> initial + delay < 2^32 -> plain_place g area ->
  t < 2^32 -> Lead_SYNCHRONIZE_QUIRKY < w_lead g -> t / 65536 mod 25 = first_pid t mod 25 ->
  can_be_met fuel junk g area delay initial (first_pid t) (ivs_after g t).
Proof.
  intros J F D P T L Ev. apply (met_iff fuel junk g area initial delay J P F D).
  destruct (steps_onto 1 t T) as (u & Hu & E). exists u. split; [exact Hu|].
  assert (R : forall k, rand_at u (1 + k) = rand_at t k) by (intros k; rewrite <- E, rand_at_steps; reflexivity).
  assert (R0 : rand_at u 1 = t / 65536) by (rewrite <- E; reflexivity).
  assert (Pt : pid_at (rand_at u) 1 = first_pid t).
  { unfold pid_at, first_pid. change (1 + 1) with 2. change (1 + 2) with 3.
    pose proof (R 1) as R1. pose proof (R 2) as R2. change (1 + 1) with 2 in R1. change (1 + 2) with 3 in R2. now rewrite R1, R2. }
  assert (A : met g u (pid_at (rand_at u) 1) (ivs_from (rand_at u (iv1_pos g (1 + 2))) (rand_at u (iv2_pos g (1 + 2))))).
  { apply (at_once g u (t / 65536 mod 25) 1); [|rewrite Pt; now symmetry].
    unfold nature_choice. change (0 + 1) with 1. rewrite R0. apply N.leb_gt in L. now rewrite L. }
  rewrite Pt in A. unfold ivs_after. rewrite <- (R (iv1_pos g 2)), <- (R (iv2_pos g 2)).
  replace (1 + iv1_pos g 2) with (iv1_pos g (1 + 2)) by (unfold iv1_pos; lia).
  replace (1 + iv2_pos g 2) with (iv2_pos g (1 + 2)) by (unfold iv2_pos, iv1_pos; lia). exact A.
Qed.
