(** Every trainer can meet a shiny Pokemon. *)
From Coq Require Import NArith ZArith List Bool Lia.
From Verif Require Import Base.Word Base.WordLemmas Model.Gen3State Model.Gen3Area Model.Gen3Wild
  Spec.LcrngSpec Spec.Gen3Spec Spec.Gen3WildSpec Spec.WildRateSpec Spec.SisterSpec Spec.PlaceSpec
  Proofs.Gen3AreaProofs Proofs.Gen3Pid Proofs.LcrngRecover Proofs.Gen3Recover Proofs.Gen3Props Proofs.SpreadProofs Proofs.PlaceProofs
  Proofs.PerfectProofs Proofs.ShinySeeds.
Import ListNotations.
Open Scope list_scope.
Open Scope N_scope.
Ltac Zify.zify_post_hook ::= idtac.

Definition good_seed (c t : N) : bool :=
  (t <? 4294967296) && (back t / 65536 mod 2 =? 1) && (t / 65536 mod 25 =? first_pid t mod 25) &&
  (N.lxor (rand_at t 1) (rand_at t 2) / 8 =? c).
(** The same with cheaper arithmetic. *)
Definition fast_next (s : N) : N := N.land (0x41C64E6D * s + 0x6073) 0xFFFFFFFF.
Definition fast_seed (c t : N) : bool :=
  let s1 := fast_next t in let s2 := fast_next s1 in let lo := N.shiftr s1 16 in let hi := N.shiftr s2 16 in
  (N.shiftr t 32 =? 0) && N.testbit (0xEEB9EB65 * t + 0xA3561A1) 16 && (N.shiftr t 16 mod 25 =? (lo + N.shiftl hi 16) mod 25) &&
  (N.shiftr (N.lxor lo hi) 3 =? c).
Lemma fast_next_ok s : fast_next s = lcg 32 0x41C64E6D 0x6073 s.
Proof. unfold fast_next, lcg. change 0xFFFFFFFF with (N.ones 32). apply N.land_ones. Qed.
Lemma fast_ok c t : fast_seed c t = true -> good_seed c t = true.
Proof.
  unfold fast_seed, good_seed. cbv zeta. rewrite !fast_next_ok. rewrite !N.shiftr_div_pow2, N.shiftl_mul_pow2.
  change (lcg 32 0x41C64E6D 0x6073 (lcg 32 0x41C64E6D 0x6073 t) / 2^16) with (rand_at t 2).
  change (lcg 32 0x41C64E6D 0x6073 t / 2^16) with (rand_at t 1). change (2^3) with 8. change (2^16) with 65536. change (2^32) with 4294967296.
  rewrite (N.mul_comm _ 65536). change (rand_at t 1 + 65536 * rand_at t 2) with (first_pid t).
  intros H. rewrite !andb_true_iff in H |- *. destruct H as [[[A B] C] D]. split; [split; [split|exact C]|exact D].
  - apply N.eqb_eq in A. apply N.ltb_lt. apply N.div_small_iff in A; [exact A|discriminate].
  - apply N.eqb_eq. unfold back. set (x := 0xEEB9EB65 * t + 0xA3561A1) in *. clearbody x. clear - B.
    rewrite N.testbit_eqb in B. apply N.eqb_eq in B. change (2^16) with 65536 in B. rewrite <- B.
    change 4294967296 with (65536 * 65536). rewrite N.mod_mul_r, N.add_comm, N.mul_comm, N.div_add_l by discriminate.
    rewrite (N.div_small (x mod 65536)) by (apply N.mod_lt; discriminate). rewrite N.add_0_r.
    change 65536 with (2 * 32768) at 2. rewrite N.mod_mul_r, N.add_comm, N.mul_comm, N.add_comm, N.mod_add by discriminate. apply N.mod_mod. discriminate.
Qed.
Fixpoint good_seeds (c : N) (l : list N) : bool :=
  match l with [] => true | t :: l' => if fast_seed c t then good_seeds (N.succ c) l' else false end.
Lemma good_nth l : forall c k t, good_seeds c l = true -> nth_error l k = Some t -> good_seed (c + N.of_nat k) t = true.
Proof.
  induction l as [|x l IH]; intros c [|k] t H E; try discriminate E; cbn [good_seeds] in H; destruct (fast_seed c x) eqn:A; try discriminate H.
  - injection E as <-. rewrite N.add_0_r. exact (fast_ok c x A).
  - replace (c + N.of_nat (S k)) with (N.succ c + N.of_nat k) by lia. exact (IH (N.succ c) k t H E).
Qed.
Lemma table_ok : good_seeds 0 (concat shiny_seeds) = true /\ (N.of_nat (length (concat shiny_seeds)) =? 8192) = true.
Proof. split; vm_compute; reflexivity. Qed.
Lemma some_good c : c < 8192 -> exists t, good_seed c t = true.
Proof.
  intros H. destruct table_ok as [A B]. revert A B. generalize (concat shiny_seeds). intros l A B. apply N.eqb_eq in B.
  destruct (nth_error l (N.to_nat c)) as [t|] eqn:E.
  - exists t. pose proof (good_nth l 0 (N.to_nat c) t A E) as G. rewrite N2Nat.id in G. exact G.
  - apply nth_error_None in E. lia.
Qed.

Lemma rand_lt s k : s < 2^32 -> rand_at s k < 65536.
Proof.
  intros H. unfold rand_at. pose proof (steps_lt k s H) as B. unfold steps in B. change (2^32) with (65536 * 65536) in B.
  apply N.div_lt_upper_bound; [discriminate|exact B].
Qed.
Lemma xor_close x y : x / 8 = y / 8 -> N.lxor x y < 8.
Proof.
  intros H. change 8 with (2^3) in H |- *. rewrite <- !N.shiftr_div_pow2 in H.
  assert (E : N.lxor x y / 2^3 = 0) by (rewrite <- N.shiftr_div_pow2, N.shiftr_lxor, H; apply N.lxor_nilpotent).
  apply N.div_small_iff in E; [exact E|discriminate].
Qed.
Lemma first_pid_shiny t tsv : t < 2^32 -> N.lxor (rand_at t 1) (rand_at t 2) / 8 = tsv / 8 -> shiny_of (first_pid t) tsv <> NotShiny.
Proof.
  intros T E. pose proof (rand_lt t 1 T) as A. pose proof (rand_lt t 2 T) as B. unfold shiny_of, first_pid.
  set (lo := rand_at t 1) in *. set (hi := rand_at t 2) in *. clearbody lo hi.
  replace ((lo + 65536 * hi) / 65536) with hi.
  2:{ rewrite N.mul_comm, N.div_add, N.div_small by (exact A || discriminate). reflexivity. }
  replace ((lo + 65536 * hi) mod 65536) with lo.
  2:{ rewrite N.mul_comm, N.mod_add, N.mod_small by (exact A || discriminate). reflexivity. }
  rewrite (N.lxor_comm hi lo). assert (D : N.lxor tsv (N.lxor lo hi) < 8) by (apply xor_close; now symmetry).
  apply N.ltb_lt in D. rewrite D. destruct (_ =? 0); discriminate.
Qed.

Lemma any_lead_meets g t : t < 2^32 -> back t / 65536 mod 2 = 1 -> t / 65536 mod 25 = first_pid t mod 25 ->
  exists s ivs, s < 2^32 /\ met g s (first_pid t) ivs.
Proof.
  intros T O E. set (q := if w_lead g <=? Lead_SYNCHRONIZE_QUIRKY then 2 else 1).
  destruct (steps_onto q t T) as (u & Hu & S).
  assert (P : pid_at (rand_at u) q = first_pid t).
  { unfold pid_at, first_pid. rewrite <- !(rand_at_steps u q), S. reflexivity. }
  eexists u, _. split; [exact Hu|]. rewrite <- P. apply (at_once g u (t / 65536 mod 25) q); [|now rewrite P, E].
  unfold nature_choice. change (0 + 1) with 1. change (0 + 2) with 2. unfold q in S |- *.
  destruct (w_lead g <=? Lead_SYNCHRONIZE_QUIRKY).
  - assert (R1 : rand_at u 1 mod 2 = 1).
    { assert (Bk : back t = steps 1 u) by (rewrite <- S; apply (back_poke (steps 1 u)), steps_lt, Hu). rewrite Bk in O. exact O. }
    rewrite R1. change (1 =? 0) with false. cbv iota. rewrite <- S. reflexivity.
  - rewrite <- S. reflexivity.
Qed.

Lemma shiny_met fuel junk g area delay initial :
  length junk = 6%nat -> 2^31 <= N.of_nat fuel -> initial + delay < 2^32 -> plain_place g area -> w_tsv g < 65536 ->
  exists pid ivs, shiny_of pid (w_tsv g) <> NotShiny /\ can_be_met fuel junk g area delay initial pid ivs.
Proof.
  intros J F D P V. assert (C : w_tsv g / 8 < 8192) by (apply N.div_lt_upper_bound; [discriminate|exact V]).
  destruct (some_good _ C) as (t & G). unfold good_seed in G. rewrite !andb_true_iff in G. destruct G as [[[A B] N] X].
  apply N.ltb_lt in A. apply N.eqb_eq in B, N, X. change 4294967296 with (2^32) in A.
  destruct (any_lead_meets g t A B N) as (s & ivs & Hs & M). exists (first_pid t), ivs.
  split; [exact (first_pid_shiny t _ A X)|]. apply (met_iff fuel junk g area initial delay J P F D). exists s. split; [exact Hs|exact M].
Qed.

Lemma shiny_state fuel junk t method encounter lead game tid sid area delay initial :
  let g := wild_new t method encounter lead game tid sid in
  length junk = 6%nat -> 2^31 <= N.of_nat fuel -> initial + delay < 2^32 -> plain_place g area ->
  exists seed st, seed < 2^32 /\ wild_generate fuel junk g seed delay initial 1 area = Ok [st] /\ (g_shiny st = 1 \/ g_shiny st = 2).
Proof.
  intros g J F D P. assert (V : w_tsv g < 65536) by (unfold g; cbn [w_tsv wild_new]; apply w16_lt).
  destruct (shiny_met fuel junk g area delay initial J F D P V) as (pid & ivs & Sh & seed & st & Hs & E & Ep & _).
  exists seed, st. split; [exact Hs|]. split; [exact E|].
  assert (Hm : initial + 1 <= 2^32) by lia.
  pose proof (generate_coherent fuel junk g seed delay initial 1 area [st] J (proj1 (proj1 P)) Hs D Hm E) as Co.
  apply Forall_inv in Co. destruct Co as (slot & info & _ & _ & _ & _ & _ & _ & _ & _ & _ & S & _).
  rewrite S, Ep. destruct (shiny_of pid (w_tsv g)); [contradiction|left|right]; reflexivity.
Qed.
