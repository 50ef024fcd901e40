(** The binary32 product of compute_stat truncates to the exact tenths, from the rounding
    lemmas of Proofs/FloatProofs.v. *)
From Coq Require Import NArith ZArith QArith Qabs Lia Lqa SpecFloat.
From Verif Require Import Model.Float Proofs.FloatProofs.
Open Scope Q_scope.

Definition m90 := S754_finite false 15099494 (-24).
Definition m100 := S754_finite false 8388608 (-23).
Definition m110 := S754_finite false 9227469 (-23).

Lemma trunc_floor r a : (r = S754_zero false \/ exists m e, r = S754_finite false m e) ->
  (0 <= a)%Z -> inject_Z a <= fval r -> fval r < inject_Z (a + 1) -> f_trunc r = a.
Proof.
  intros [->|(m & e & ->)] Ha L U; cbn [fval f_trunc signed] in *.
  - change 0 with (inject_Z 0) in L, U. rewrite <- Zle_Qle in L. lia.
  - destruct (Z.leb_spec 0 e) as [He|He].
    + rewrite p2_Z, <- inject_Z_mult in L, U by lia. rewrite <- Zle_Qle in L. rewrite <- Zlt_Qlt in U. lia.
    + assert (K : p2 (- e) * p2 e == 1).
      { rewrite <- p2_plus. replace (- e + e)%Z with 0%Z by lia. reflexivity. }
      pose proof (p2_pos e) as P. pose proof (p2_pos (- e)) as P'.
      assert (L' : inject_Z a * p2 (- e) <= inject_Z (Z.pos m)).
      { setoid_replace (inject_Z (Z.pos m)) with (inject_Z (Z.pos m) * p2 e * p2 (- e)).
        - apply Qmult_le_compat_r; [exact L|now apply Qlt_le_weak].
        - rewrite <- Qmult_assoc, (Qmult_comm (p2 e)), K. ring. }
      assert (U' : inject_Z (Z.pos m) < inject_Z (a + 1) * p2 (- e)).
      { setoid_replace (inject_Z (Z.pos m)) with (inject_Z (Z.pos m) * p2 e * p2 (- e)).
        - apply Qmult_lt_compat_r; [exact P'|exact U].
        - rewrite <- Qmult_assoc, (Qmult_comm (p2 e)), K. ring. }
      rewrite p2_Z, <- inject_Z_mult in L', U' by lia. rewrite <- Zle_Qle in L'. rewrite <- Zlt_Qlt in U'.
      symmetry. apply Z.div_unique with (Z.pos m - a * 2 ^ (- e))%Z; lia.
Qed.

(** A stat as binary32. *)
Lemma of_N_val s : (0 < s < 65536)%Z -> exists m e, f32_of_Z s = S754_finite false m e /\
  canonical 24 128 (S754_finite false m e) /\ inject_Z (Zpos m) * p2 e == inject_Z s.
Proof.
  intros Hs. assert (D : (Zdigits2 s <= 16)%Z) by (apply Zdigits_le; [lia|change (2 ^ 16)%Z with 65536%Z; lia]).
  destruct (normalize_exact 24 128 ltac:(lia) ltac:(lia) s 0 false) as [C V];
    [lia|unfold emin; lia|lia|]. fold (f32_of_Z s) in C, V.
  rewrite Qmult_1_r in V. unfold f32_of_Z, binary_normalize in *. destruct s as [|p|p]; try lia.
  pose proof (round_ok 24 128 ltac:(lia) ltac:(lia) false p 0) as R.
  destruct R as [_ [E|(m & e & E)]].
  { rewrite Qmult_1_r. unfold maxf. change (inject_Z (2 ^ 24 - 1) * p2 (128 - 24)) with (inject_Z (2 ^ 24 - 1) * p2 104).
    rewrite p2_Z, <- inject_Z_mult, <- Zle_Qle by lia. apply Z.le_trans with 65536%Z; [lia|now vm_compute]. }
  - rewrite E in V. cbn [fval] in V. exfalso. unfold Qeq in V. cbn in V. lia.
  - exists m, e. rewrite E in *. repeat split; [apply C|apply C|]. exact V.
Qed.

Section Product.
Variables (s : Z) (M : positive) (eM : Z).
Hypothesis Hs : (0 < s < 65536)%Z.
Hypothesis HM : canonical 24 128 (S754_finite false M eM).
Hypothesis Hbig : inject_Z (Zpos M) * p2 eM <= 2.
Hypothesis Hsmall : (1 # 2) <= inject_Z (Zpos M) * p2 eM.
Let p := inject_Z s * (inject_Z (Zpos M) * p2 eM).
Let r := f32_mul (f32_of_Z s) (S754_finite false M eM).

(** The product is rounded on a grid of step 2^-t. *)
Lemma product_grid :
  (r = S754_zero false \/ exists m e, r = S754_finite false m e) /\
  exists t n, (7 <= t)%Z /\ p < p2 (24 - t) /\ fval r == inject_Z n * p2 (- t) /\
    Qabs (inject_Z n * p2 (- t) - p) <= (1 # 2) * p2 (- t).
Proof.
  destruct (of_N_val s Hs) as (m & e & E & C & V).
  assert (B : inject_Z s <= 65535) by (change 65535 with (inject_Z 65535); rewrite <- Zle_Qle; lia).
  assert (B1 : 1 <= inject_Z s) by (change 1 with (inject_Z 1); rewrite <- Zle_Qle; lia).
  assert (B' : p <= 131070 /\ (1 # 2) <= p) by (unfold p; nra). destruct B' as [B' B2].
  destruct (mul_grid 24 128 ltac:(lia) ltac:(lia) m e M eM C HM) as (S & d & n & L & U & F & G).
  { rewrite V. fold p. apply Qle_trans with (1 := B'). unfold maxf.
    change (128 - 24)%Z with 104%Z. rewrite p2_Z, <- inject_Z_mult by lia.
    change 131070 with (inject_Z 131070). rewrite <- Zle_Qle. now vm_compute. }
  unfold r, f32_mul. rewrite E. split; [exact S|].
  rewrite V in L, U, G. fold p in L, U, G.
  assert (Dlo : (0 <= d)%Z).
  { assert (K : p2 (-1) < p2 d) by (apply Qle_lt_trans with (2 := U); exact B2). apply p2_lt_inv in K. lia. }
  assert (Dhi : (d <= 17)%Z).
  { assert (K : p2 (d - 1) < p2 17).
    { apply Qle_lt_trans with (1 := L). apply Qle_lt_trans with (1 := B'). reflexivity. }
    apply p2_lt_inv in K. lia. }
  exists (24 - d)%Z, n. replace (24 - (24 - d))%Z with d by lia.
  assert (Ef : fexp 24 128 d = (- (24 - d))%Z) by (unfold fexp, emin; lia).
  rewrite Ef in F, G. split; [lia|]. now split.
Qed.

(** A product at or just above the integer [a]. *)
Lemma product_trunc a : (0 <= a)%Z -> inject_Z a <= p -> p <= inject_Z a + (99 # 100) -> f_trunc r = a.
Proof.
  intros Ha L U. destruct product_grid as (S & t & n & T & Pt & F & G).
  apply Qabs_Qle_condition in G. destruct G as [G1 G2].
  pose proof (p2_pos (- t)) as P.
  assert (K : p2 t * p2 (- t) == 1).
  { rewrite <- p2_plus. replace (t + - t)%Z with 0%Z by lia. reflexivity. }
  assert (T7 : p2 (- t) <= 1 # 128) by (change (1 # 128) with (p2 (- 7)); apply p2_le; lia).
  apply trunc_floor; [exact S|exact Ha| |].
  - rewrite F. setoid_replace (inject_Z a) with (inject_Z (a * 2 ^ t) * p2 (- t)).
    + apply Qmult_le_compat_r; [|now apply Qlt_le_weak]. rewrite <- Zle_Qle.
      assert (A : inject_Z (a * 2 ^ t) - (1 # 2) <= inject_Z n).
      { assert (A : (inject_Z (a * 2 ^ t) - (1 # 2)) * p2 (- t) <= inject_Z n * p2 (- t)).
        { rewrite inject_Z_mult, <- (p2_Z t) by lia.
          setoid_replace ((inject_Z a * p2 t - (1 # 2)) * p2 (- t)) with (inject_Z a * (p2 t * p2 (- t)) - (1 # 2) * p2 (- t)) by ring.
          rewrite K. lra. }
        now apply Qmult_le_r in A. }
      apply Z.lt_succ_r. rewrite Zlt_Qlt. unfold Z.succ. rewrite inject_Z_plus. change (inject_Z 1) with 1. lra.
    + rewrite inject_Z_mult, <- (p2_Z t) by lia. rewrite <- Qmult_assoc, K. ring.
  - rewrite F, inject_Z_plus. change (inject_Z 1) with 1. lra.
Qed.

(** A product just below the integer [a]: less than half a step. *)
Lemma product_round a : (0 < a)%Z -> p <= inject_Z a ->
  (forall t, p < p2 (24 - t) -> inject_Z a - p < (1 # 2) * p2 (- t)) -> f_trunc r = a.
Proof.
  intros Ha L U. destruct product_grid as (S & t & n & T & Pt & F & G).
  apply Qabs_Qle_condition in G. destruct G as [G1 G2]. specialize (U t Pt).
  pose proof (p2_pos (- t)) as P.
  assert (K : p2 t * p2 (- t) == 1).
  { rewrite <- p2_plus. replace (t + - t)%Z with 0%Z by lia. reflexivity. }
  assert (A : inject_Z a == inject_Z (a * 2 ^ t) * p2 (- t)).
  { rewrite inject_Z_mult, <- (p2_Z t) by lia. rewrite <- Qmult_assoc, K. ring. }
  assert (En : n = (a * 2 ^ t)%Z).
  { rewrite A in L, U. generalize dependent (a * 2 ^ t)%Z. intros w L U _.
    assert (W1 : inject_Z w - 1 < inject_Z n).
    { apply Qmult_lt_r with (p2 (- t)); [exact P|]. lra. }
    assert (W2 : inject_Z n < inject_Z w + 1).
    { apply Qmult_lt_r with (p2 (- t)); [exact P|]. lra. }
    change 1 with (inject_Z 1) in W1, W2. rewrite <- inject_Z_plus, <- Zlt_Qlt in W2.
    unfold Qminus in W1. rewrite <- inject_Z_opp, <- inject_Z_plus, <- Zlt_Qlt in W1. lia. }
  assert (V : fval r == inject_Z a) by (rewrite F, En, A; reflexivity).
  apply trunc_floor; [exact S|lia| |]; rewrite V; [apply Qle_refl|]. rewrite <- Zlt_Qlt. lia.
Qed.
End Product.

Lemma canonical_m90 : canonical 24 128 m90. Proof. now split. Qed.
Lemma canonical_m100 : canonical 24 128 m100. Proof. now split. Qed.
Lemma canonical_m110 : canonical 24 128 m110. Proof. now split. Qed.

Lemma tenth_bounds s k : (0 <= s)%Z -> (0 <= k)%Z -> exists j, (0 <= j <= 9)%Z /\
  inject_Z (s * k / 10) == (inject_Z k * inject_Z s - inject_Z j) * (1 # 10).
Proof.
  intros Hs Hk. exists ((s * k) mod 10)%Z. pose proof (Z.mod_pos_bound (s * k) 10 ltac:(lia)) as B. split; [lia|].
  rewrite <- inject_Z_mult. unfold Qminus. rewrite <- inject_Z_opp, <- inject_Z_plus.
  pose proof (Z.div_mod (s * k) 10 ltac:(lia)) as E.
  replace (k * s + - ((s * k) mod 10))%Z with (10 * (s * k / 10))%Z by lia.
  rewrite inject_Z_mult. change (inject_Z 10) with 10. ring.
Qed.

Lemma stat_90 s : (0 <= s < 65536)%Z -> f_trunc (f32_mul (f32_of_Z s) m90) = (s * 9 / 10)%Z.
Proof.
  intros Hs. destruct (Z.eq_dec s 0) as [->|N]; [reflexivity|].
  destruct (tenth_bounds s 9 ltac:(lia) ltac:(lia)) as (j & Hj & E).
  assert (V : inject_Z 15099494 * p2 (-24) == 15099494 # 16777216) by reflexivity.
  assert (B : inject_Z s <= 65535) by (change 65535 with (inject_Z 65535); rewrite <- Zle_Qle; lia).
  assert (B1 : 1 <= inject_Z s) by (change 1 with (inject_Z 1); rewrite <- Zle_Qle; lia).
  change (inject_Z 9) with 9 in E.
  destruct (Z.eq_dec j 0) as [->|Nj].
  - change (inject_Z 0) with 0 in E.
    apply product_round; [lia|apply canonical_m90|rewrite V; unfold Qle; cbn; lia|rewrite V; unfold Qle; cbn; lia| | |].
    + rewrite Zlt_Qlt. change (inject_Z 0) with 0. lra.
    + rewrite V, E. lra.
    + intros t. rewrite V, E. replace (24 - t)%Z with (- t + 24)%Z by lia. rewrite p2_plus.
      change (p2 24) with 16777216. intros H. lra.
  - assert (J : 1 <= inject_Z j <= 9).
    { split; [change 1 with (inject_Z 1)|change 9 with (inject_Z 9)]; rewrite <- Zle_Qle; lia. }
    apply product_trunc; [lia|apply canonical_m90|rewrite V; unfold Qle; cbn; lia|rewrite V; unfold Qle; cbn; lia| | |].
    + apply Z.div_pos; lia.
    + rewrite V, E. lra.
    + rewrite V, E. lra.
Qed.
Lemma stat_100 s : (0 <= s < 65536)%Z -> f_trunc (f32_mul (f32_of_Z s) m100) = s.
Proof.
  intros Hs. destruct (Z.eq_dec s 0) as [->|N]; [reflexivity|].
  assert (V : inject_Z 8388608 * p2 (-23) == 1) by reflexivity.
  apply product_trunc; [lia|apply canonical_m100|rewrite V; unfold Qle; cbn; lia|rewrite V; unfold Qle; cbn; lia|lia| |];
    rewrite V; lra.
Qed.
Lemma stat_110 s : (0 <= s < 65536)%Z -> f_trunc (f32_mul (f32_of_Z s) m110) = (s * 11 / 10)%Z.
Proof.
  intros Hs. destruct (Z.eq_dec s 0) as [->|N]; [reflexivity|].
  destruct (tenth_bounds s 11 ltac:(lia) ltac:(lia)) as (j & Hj & E).
  assert (V : inject_Z 9227469 * p2 (-23) == 9227469 # 8388608) by reflexivity.
  assert (B : inject_Z s <= 65535) by (change 65535 with (inject_Z 65535); rewrite <- Zle_Qle; lia).
  assert (B1 : 1 <= inject_Z s) by (change 1 with (inject_Z 1); rewrite <- Zle_Qle; lia).
  change (inject_Z 11) with 11 in E.
  assert (J : 0 <= inject_Z j <= 9).
  { split; [change 0 with (inject_Z 0)|change 9 with (inject_Z 9)]; rewrite <- Zle_Qle; lia. }
  apply product_trunc; [lia|apply canonical_m110|rewrite V; unfold Qle; cbn; lia|rewrite V; unfold Qle; cbn; lia| | |].
  - apply Z.div_pos; lia.
  - rewrite V, E. lra.
  - rewrite V, E. lra.
Qed.
