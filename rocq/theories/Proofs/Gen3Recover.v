(** A PID and three IVs determine the seed they were drawn from. *)
From Coq Require Import NArith ZArith List Bool Lia.
From Verif Require Import Base.Word Base.WordLemmas Model.Float Model.Lcrng32 Model.LcrngClasses
  Model.Gen3State Model.Gen3Area Model.Gen3Wild Spec.LcrngSpec Spec.Gen3Spec Spec.Gen3WildSpec Spec.RecoverSpec
  Proofs.Gen3AreaProofs Proofs.Gen3Pid Proofs.Gen3Props Proofs.LcrngRecover.
Import ListNotations.
Ltac Zify.zify_post_hook ::= idtac.
Open Scope Z_scope.

Notation z s := (Z.of_N s).
Notation poke := (lcg 32 0x41C64E6D 0x6073).

Lemma poke_Z x : z (poke x) = (z x * z 0x41C64E6D + z 0x6073) mod 4294967296.
Proof.
  unfold lcg. rewrite N2Z.inj_mod, N2Z.inj_add, N2Z.inj_mul. change (z (2 ^ 32)) with 4294967296.
  f_equal. ring.
Qed.
Lemma poke_lt x : (poke x < 4294967296)%N.
Proof. apply N.mod_lt. discriminate. Qed.
Lemma poke_inj s s' : (s < 4294967296)%N -> (s' < 4294967296)%N -> poke s = poke s' -> s = s'.
Proof.
  intros Hs Hs' E.
  apply (step_injective 4294967296 poke 0x6073 0x41C64E6D s s' 0xEEB9EB65); try assumption; try lia.
  exact poke_Z.
Qed.

(** Differences modulo 2^31. *)
Definition low (x : N) : Z := z x mod 2147483648.
Lemma low_of x : exists b, z x = low x + 2147483648 * b.
Proof.
  exists (z x / 2147483648). unfold low. pose proof (Z.div_mod (z x) 2147483648 ltac:(discriminate)). lia.
Qed.
Lemma low_next s s' : exists q, low (poke s) - low (poke s') = 1103515245 * (low s - low s') + 2147483648 * q.
Proof.
  destruct (next_diff 4294967296 poke 0x6073 0x41C64E6D s s' ltac:(discriminate) poke_Z) as [q Q].
  change (z 1103515245) with 1103515245 in Q.
  destruct (low_of s) as [b B]. destruct (low_of s') as [b' B'].
  destruct (low_of (poke s)) as [c C]. destruct (low_of (poke s')) as [c' C'].
  exists (2 * q + 1103515245 * (b - b') - (c - c')). lia.
Qed.
Lemma low_close x y : (x / 65536 mod 32768 = y / 65536 mod 32768)%N -> Z.abs (low x - low y) < 65536.
Proof.
  intros H. assert (G : forall v, low v / 65536 = z (v / 65536 mod 32768)%N).
  { intros v. unfold low. rewrite N2Z.inj_mod, N2Z.inj_div. change (z 65536) with 65536. change (z 32768) with 32768.
    change 2147483648 with (65536 * 32768).
    rewrite Z.rem_mul_r by lia. rewrite Z.add_comm, Z.mul_comm, Z.div_add_l by lia.
    rewrite (Z.div_small (_ mod 65536)) by (apply Z.mod_pos_bound; reflexivity). lia. }
  pose proof (G x) as X. pose proof (G y) as Y. rewrite H in X. rewrite <- Y in X.
  pose proof (Z.div_mod (low x) 65536 ltac:(discriminate)). pose proof (Z.div_mod (low y) 65536 ltac:(discriminate)).
  pose proof (Z.mod_pos_bound (low x) 65536 eq_refl). pose proof (Z.mod_pos_bound (low y) 65536 eq_refl).
  lia.
Qed.

Lemma iv_word (r r' : N) :
  (r mod 32 = r' mod 32)%N -> (r / 32 mod 32 = r' / 32 mod 32)%N -> (r / 1024 mod 32 = r' / 1024 mod 32)%N ->
  (r mod 32768 = r' mod 32768)%N.
Proof.
  assert (G : forall v, (v mod 32768 = v mod 32 + 32 * (v / 32 mod 32) + 1024 * (v / 1024 mod 32))%N).
  { intros v. change 32768%N with (1024 * 32)%N. rewrite N.mod_mul_r by discriminate.
    change 1024%N with (32 * 32)%N at 1. rewrite (N.mod_mul_r v 32 32) by discriminate. reflexivity. }
  intros A B C. now rewrite !G, A, B, C.
Qed.

Lemma rand1 s : (rand_at s 1 = poke s / 65536)%N. Proof. reflexivity. Qed.
Lemma rand2 s : (rand_at s 2 = poke (poke s) / 65536)%N. Proof. reflexivity. Qed.
Lemma rand3 s : (rand_at s 3 = poke (poke (poke s)) / 65536)%N. Proof. reflexivity. Qed.
Lemma rand4 s : (rand_at s 4 = poke (poke (poke (poke s))) / 65536)%N. Proof. reflexivity. Qed.

Lemma split_pid (a b a' b' : N) : (a < 65536)%N -> (a' < 65536)%N ->
  (a + 65536 * b = a' + 65536 * b')%N -> a = a' /\ b = b'.
Proof. lia. Qed.

Lemma identify k s s' : (k = 3 \/ k = 4)%N -> (s < 2 ^ 32)%N -> (s' < 2 ^ 32)%N ->
  pid_and_ivs k s = pid_and_ivs k s' -> s = s'.
Proof.
  intros Hk Hs Hs' E. unfold pid_and_ivs in E.
  assert (EP : (rand_at s 1 + 65536 * rand_at s 2 = rand_at s' 1 + 65536 * rand_at s' 2)%N) by congruence.
  assert (EI : (rand_at s k mod 32768 = rand_at s' k mod 32768)%N) by (apply iv_word; congruence).
  clear E.
  apply split_pid in EP; [|now apply rand_at_lt|now apply rand_at_lt]. destruct EP as [E1 E2].
  change (2 ^ 32)%N with 4294967296%N in Hs, Hs'.
  rewrite !rand1 in E1. rewrite !rand2 in E2.
  pose proof (high_close _ _ 65536 eq_refl E1) as H1.
  assert (L1 : Z.abs (low (poke s) - low (poke s')) < 65536) by (apply low_close; now rewrite E1).
  assert (L2 : Z.abs (low (poke (poke s)) - low (poke (poke s'))) < 65536) by (apply low_close; now rewrite E2).
  destruct (low_next (poke s) (poke s')) as [q1 Q1].
  destruct (low_next (poke (poke s)) (poke (poke s'))) as [q2 Q2].
  assert (D : low (poke s) - low (poke s') = 0).
  { destruct Hk as [-> | ->].
    - rewrite !rand3 in EI. apply low_close in EI.
      refine (rows_zero 2147483648 65536 1103515245 (1103515245 * 1103515245)
                (423, 144, -607) (-710, 825, -167) (-1835, -1393, -1272) _ _ _ q1 (1103515245 * q1 + q2)
                ltac:(lia) ltac:(lia) _ L1 L2 EI Q1 _); [vm_compute; reflexivity|].
      rewrite Q2, Q1. ring.
    - rewrite !rand4 in EI. apply low_close in EI.
      destruct (low_next (poke (poke (poke s))) (poke (poke (poke s')))) as [q3 Q3].
      refine (rows_zero 2147483648 65536 1103515245 (1103515245 * 1103515245 * 1103515245)
                (813, 244, -621) (501, -741, 1244) (-809, -991, -980) _ _ _ q1
                (1103515245 * 1103515245 * q1 + 1103515245 * q2 + q3)
                ltac:(lia) ltac:(lia) _ L1 L2 EI Q1 _); [vm_compute; reflexivity|].
      rewrite Q3, Q2, Q1. ring. }
  apply poke_inj; try assumption.
  destruct (low_of (poke s)) as [b B]. destruct (low_of (poke s')) as [b' B'].
  assert (b = b') by lia. subst b'. lia.
Qed.

(** Every generated state. *)
Lemma generated_identify fuel junk g seed delay initial max area l :
  length junk = 6%nat -> setting_ok g area ->
  (seed < 2^32)%N -> (initial + delay < 2^32)%N -> (initial + max <= 2^32)%N ->
  wild_generate fuel junk g seed delay initial max area = Ok l ->
  forall i st, nth_error l (N.to_nat i) = Some st ->
  let k := if (w_method g =? Method_METHOD_2)%N then 4%N else 3%N in
  exists p, let s := lcg_steps 32 0x41C64E6D 0x6073 (initial + i + delay + p) seed in
    pid_and_ivs k s = (g_pid st, firstn 3 (g_ivs st)) /\
    forall s', (s' < 2^32)%N -> pid_and_ivs k s' = (g_pid st, firstn 3 (g_ivs st)) -> s' = s.
Proof.
  intros Hj Hset Hs Hd Hm H i st Hi k.
  destruct (generate_states _ _ _ _ _ _ _ _ _ Hj Hset Hs Hd Hm H i st Hi) as [mods [d [_ [Hdr [Hst _]]]]].
  destruct Hst as [_ [Ep [_ [_ [_ [Ei _]]]]]].
  destruct Hdr as [_ [p1 [p2 [p3 [p4 [_ [_ [_ [_ [_ [_ [_ [Dp [_ Di]]]]]]]]]]]]]].
  set (p := (d_first d + 2 * d_tries d)%N) in *.
  exists p. cbv zeta.
  fold (steps (initial + i + delay + p) seed).
  assert (F : pid_and_ivs k (steps (initial + i + delay + p) seed) = (g_pid st, firstn 3 (g_ivs st))).
  { assert (R : forall j, rand_at (steps (initial + i + delay + p) seed) j
                 = rand_at (lcg_steps 32 0x41C64E6D 0x6073 (initial + i + delay) seed) (p + j)).
    { intros j. fold (steps (initial + i + delay) seed). rewrite !rand_at_steps. f_equal. lia. }
    rewrite Ep, Ei, Dp, Di. unfold pid_and_ivs. rewrite !R. unfold pid_at, ivs_from, iv1_pos. cbn [firstn].
    assert (K : (p + k = p + 2 + (if w_method g =? Method_METHOD_2 then 2 else 1))%N)
      by (unfold k; destruct (w_method g =? Method_METHOD_2)%N; lia).
    rewrite K. reflexivity. }
  split; [exact F|].
  intros s' Hs' F'. apply (identify k); [|exact Hs'|now apply steps_lt|congruence].
  unfold k. destruct (w_method g =? Method_METHOD_2)%N; auto.
Qed.
