(** Affine maps modulo M = 2^w: jumps, inverses, full period. *)
From Coq Require Import NArith ZArith List Bool Lia Setoid Morphisms.
From Coq Require Import ZifyBool ZifyNat ZifyN.
From Verif Require Import Base.Word Base.WordLemmas Base.Cong Spec.LcrngSpec.
Import ListNotations.
Open Scope N_scope.

(** x -> x*m + a modulo M, in the order the code writes it. *)
Definition aff (M : N) (e : N * N) (x : N) : N := (x * snd e + fst e) mod M.
(** The next table entry. *)
Definition dbl (M : N) (e : N * N) : N * N :=
  ((fst e * ((snd e + 1) mod M)) mod M, (snd e * snd e) mod M).

Lemma aff_cong M e x y : cong M x y -> aff M e x = aff M e y.
Proof.
  intros H. change (cong M (x * snd e + fst e) (y * snd e + fst e)). now rewrite H.
Qed.

Lemma aff_dbl M e x : aff M (dbl M e) x = aff M e (aff M e x).
Proof.
  destruct e as [a m]. unfold aff, dbl; cbn [fst snd].
  change (cong M (x * ((m * m) mod M) + (a * ((m + 1) mod M)) mod M)
                 ((x * m + a) mod M * m + a)).
  rewrite !cong_mod'.
  replace ((x * m + a) * m + a) with (x * (m * m) + a * (m + 1)) by ring. reflexivity.
Qed.

Lemma aff_mod M e x : aff M e x mod M = aff M e x.
Proof. unfold aff. apply cong_mod'. Qed.

Fixpoint dbl_n (M : N) (n : nat) (e : N * N) : N * N :=
  match n with O => e | S n' => dbl_n M n' (dbl M e) end.

Lemma aff_dbl_n M n e x : aff M (dbl_n M n e) x = N.iter (2 ^ N.of_nat n) (aff M e) x.
Proof.
  revert e x. induction n as [|n IH]; intros e x.
  - reflexivity.
  - cbn [dbl_n]. rewrite IH.
    replace (2 ^ N.of_nat (S n)) with (2 ^ N.of_nat n * 2)
      by (rewrite Nat2N.inj_succ, N.pow_succ_r'; lia).
    rewrite Niter_mul. apply Niter_ext. intros y. apply aff_dbl.
Qed.

(** The bit loop over a list of maps g_0, g_1, ... with g_i = f^(2^i). *)
Lemma iter_bits {A} (f : A -> A) n x :
  N.iter n f x = N.iter (N.div2 n) (fun y => f (f y)) (if N.odd n then f x else x).
Proof.
  transitivity (N.iter (N.div2 n * 2 + N.b2n (N.odd n)) f x).
  { f_equal. pose proof (N.div2_odd n). lia. }
  rewrite Niter_add, Niter_mul. destruct (N.odd n); reflexivity.
Qed.

(** ** Inverse *)
Lemma aff_inverse M a m ra rm x : M <> 0 ->
  cong M (m * rm) 1 -> cong M (ra + a * rm) 0 -> x < M ->
  aff M (ra, rm) (aff M (a, m) x) = x.
Proof.
  intros HM Hm Ha Hx. unfold aff; cbn [fst snd].
  apply (cong_small M); [now apply N.mod_lt | assumption |].
  rewrite !cong_mod'.
  replace ((x * m + a) * rm + ra) with (x * (m * rm) + (ra + a * rm)) by ring.
  rewrite Hm, Ha. replace (x * 1 + 0) with x by lia. reflexivity.
Qed.

(** ** Full period *)
Section Period.
  Variables a c : N.
  Hypothesis Ha : exists q, a = 4 * q + 1.
  Hypothesis Hc : exists q, c = 2 * q + 1.

  (** The unreduced map. *)
  Let F (x : N) : N := x * a + c.

  Lemma F_pow2 k : exists q o, forall x,
    N.iter (2 ^ N.of_nat k) F x = x * (2 ^ (N.of_nat k + 2) * q + 1) + 2 ^ N.of_nat k * (2 * o + 1).
  Proof.
    induction k as [|k (q & o & IH)].
    - destruct Ha as [qa ->], Hc as [qc ->]. exists qa, qc. intros x.
      change (2 ^ N.of_nat 0) with 1. change (2 ^ (N.of_nat 0 + 2)) with 4.
      simpl (N.iter 1 _ _). unfold F. ring.
    - rewrite Nat2N.inj_succ.
      set (p := 2 ^ N.of_nat k) in *.
      assert (E1 : 2 ^ (N.of_nat k + 2) = p * 4) by (unfold p; rewrite N.pow_add_r; reflexivity).
      assert (E2 : 2 ^ N.succ (N.of_nat k) = 2 * p) by (unfold p; now rewrite N.pow_succ_r').
      assert (E3 : 2 ^ (N.succ (N.of_nat k) + 2) = 8 * p).
      { rewrite N.pow_add_r, E2. change (2^2) with 4. lia. }
      rewrite E2, E3. rewrite E1 in IH.
      (* (4pq+1)^2 = 8p(2pq^2+q)+1 ; p(2o+1)(4pq+2) = 2p(2o+1)(2pq+1) *)
      exists (2 * p * q * q + q), (o + p * q * (2 * o + 1)).
      intros x. rewrite (N.mul_comm 2 p), Niter_mul.
      assert (EX : forall y, N.iter p (N.iter 2 F) y = N.iter p F (N.iter p F y)).
      { intros y. rewrite <- Niter_mul, N.mul_comm, Niter_mul. reflexivity. }
      rewrite EX, !IH. ring.
  Qed.

  Lemma F_block k x : cong (2 ^ (N.of_nat k + 1)) (N.iter (2 ^ N.of_nat k) F x) (x + 2 ^ N.of_nat k).
  Proof.
    destruct (F_pow2 k) as (q & o & E). rewrite E.
    set (p := 2 ^ N.of_nat k).
    assert (E1 : 2 ^ (N.of_nat k + 2) = p * 4) by (unfold p; rewrite N.pow_add_r; reflexivity).
    assert (E2 : 2 ^ (N.of_nat k + 1) = p * 2) by (unfold p; rewrite N.pow_add_r; reflexivity).
    rewrite E1, E2.
    replace (x * (p * 4 * q + 1) + p * (2 * o + 1)) with (x + p + (2 * x * q + o) * (p * 2)) by ring.
    rewrite (cong_M_l (p * 2)).
    - now rewrite N.add_0_r.
    - pose proof (N.pow_nonzero 2 (N.of_nat k)). lia.
  Qed.

  Lemma F_blocks k m x :
    cong (2 ^ (N.of_nat k + 1)) (N.iter (m * 2 ^ N.of_nat k) F x) (x + m * 2 ^ N.of_nat k).
  Proof.
    induction m using N.peano_ind.
    - simpl. now rewrite N.add_0_r.
    - replace (N.succ m * 2 ^ N.of_nat k) with (2 ^ N.of_nat k + m * 2 ^ N.of_nat k) by lia.
      rewrite Niter_add, F_block, IHm.
      replace (x + m * 2 ^ N.of_nat k + 2 ^ N.of_nat k) with (x + (2 ^ N.of_nat k + m * 2 ^ N.of_nat k)) by ring.
      reflexivity.
  Qed.

  Lemma F_period k x : cong (2 ^ N.of_nat k) (N.iter (2 ^ N.of_nat k) F x) x.
  Proof.
    pose proof (N.pow_nonzero 2 (N.of_nat k)) as Hp.
    transitivity (x + 2 ^ N.of_nat k).
    - apply (cong_divide (2 ^ (N.of_nat k + 1))); [lia| |apply F_block].
      exists 2. rewrite N.pow_add_r. change (2^1) with 2. lia.
    - rewrite <- (N.mul_1_l (2 ^ N.of_nat k)) at 2. rewrite (cong_M_l (2 ^ N.of_nat k)) by lia.
      now rewrite N.add_0_r.
  Qed.

  Lemma F_reach k x y : exists n, n < 2 ^ N.of_nat k /\ cong (2 ^ N.of_nat k) (N.iter n F x) y.
  Proof.
    induction k as [|k (n & Hn & IH)].
    - exists 0. split; [reflexivity|]. unfold cong. change (2 ^ N.of_nat 0) with 1.
      now rewrite !N.mod_1_r.
    - set (p := 2 ^ N.of_nat k) in *.
      assert (Hp : p <> 0) by (apply N.pow_nonzero; lia).
      assert (E : 2 ^ N.of_nat (S k) = p * 2).
      { unfold p. rewrite Nat2N.inj_succ, N.pow_succ_r'. lia. }
      assert (E' : 2 ^ (N.of_nat k + 1) = p * 2).
      { unfold p. rewrite N.pow_add_r. reflexivity. }
      rewrite E. set (z := N.iter n F x) in *.
      assert (Hz : cong (p * 2) z y \/ cong (p * 2) (z + p) y).
      { clearbody z. unfold cong in *. clear - IH Hp.
        rewrite !N.mod_mul_r by lia. rewrite <- IH.
        assert (H1 : (z + p) / p = z / p + 1).
        { rewrite <- (N.mul_1_l p) at 1. now rewrite N.div_add. }
        assert (H2 : (z + p) mod p = z mod p).
        { rewrite <- (N.mul_1_l p) at 1. now rewrite N.mod_add. }
        rewrite H1, H2.
        generalize (z / p), (y / p). intros u v.
        destruct (N.eq_dec (u mod 2) (v mod 2)) as [Heq|Hne].
        - left. now rewrite Heq.
        - right. assert (Hq : (u + 1) mod 2 = v mod 2) by lia. now rewrite Hq. }
      destruct Hz as [Hz|Hz].
      + exists n. split; [lia|assumption].
      + exists (p + n). split; [lia|]. rewrite Niter_add. fold z.
        rewrite <- Hz, <- E'. apply F_block.
  Qed.

  Lemma N_two_adic n : n <> 0 -> exists k m, n = (2 * m + 1) * 2 ^ N.of_nat k.
  Proof.
    induction n as [n IH] using (well_founded_induction N.lt_wf_0). intros Hn.
    destruct (N.odd n) eqn:Ho.
    - exists O, (N.div2 n). rewrite (N.div2_odd n) at 1. rewrite Ho.
      change (2 ^ N.of_nat 0) with 1. cbn [N.b2n]. lia.
    - pose proof (N.div2_odd n) as E. rewrite Ho in E. cbn [N.b2n] in E.
      destruct (IH (N.div2 n)) as (k & m & H); [lia|lia|].
      exists (S k), m. rewrite Nat2N.inj_succ, N.pow_succ_r'. lia.
  Qed.

  Lemma F_no_short_cycle w d x : d < 2 ^ N.of_nat w ->
    cong (2 ^ N.of_nat w) (N.iter d F x) x -> d = 0.
  Proof.
    intros Hd H. destruct (N.eq_dec d 0) as [|Hnz]; [assumption|exfalso].
    destruct (N_two_adic d Hnz) as (k & m & E).
    set (p := 2 ^ N.of_nat k) in *.
    assert (Hp : p <> 0) by (apply N.pow_nonzero; lia).
    assert (Hkw : (k < w)%nat).
    { destruct (Nat.lt_ge_cases k w) as [|Hge]; [assumption|exfalso].
      assert (2 ^ N.of_nat w <= p) by (apply N.pow_le_mono_r; lia). nia. }
    assert (Hdiv : cong (2 ^ (N.of_nat k + 1)) (N.iter d F x) x).
    { apply (cong_divide (2 ^ N.of_nat w)); [apply N.pow_nonzero; lia| |assumption].
      exists (2 ^ (N.of_nat w - (N.of_nat k + 1))).
      rewrite <- N.pow_add_r. f_equal. lia. }
    rewrite E in Hdiv. unfold p in Hdiv. rewrite F_blocks in Hdiv. fold p in Hdiv.
    assert (E2 : 2 ^ (N.of_nat k + 1) = p * 2) by (unfold p; rewrite N.pow_add_r; reflexivity).
    rewrite E2 in Hdiv.
    replace (x + (2 * m + 1) * p) with (p + m * (p * 2) + x) in Hdiv by ring.
    change x with (0 + x) in Hdiv at 2.
    apply (cong_add_cancel_r (p * 2)) in Hdiv; [|lia].
    rewrite (cong_M_l (p * 2)) in Hdiv by lia.
    rewrite N.add_0_r in Hdiv. apply cong_small in Hdiv; lia.
  Qed.

  Variable w : nat.
  Let M := 2 ^ N.of_nat w.
  Let f := aff M (c, a).

  Lemma f_F n x : cong M (N.iter n f x) (N.iter n F x).
  Proof.
    induction n using N.peano_ind; [reflexivity|].
    rewrite !Niter_succ. unfold f at 1, F at 1, aff. cbn [fst snd].
    rewrite cong_mod'. now rewrite IHn.
  Qed.

  Lemma f_lt n x : x < M -> N.iter n f x < M.
  Proof.
    intros Hx. apply Niter_inv; [|assumption]. intros y _. apply N.mod_lt.
    apply N.pow_nonzero. lia.
  Qed.

  Lemma f_full_period : full_period (N.of_nat w) f.
  Proof.
    assert (HM : M <> 0) by (apply N.pow_nonzero; lia).
    split.
    - intros x Hx. apply (cong_small M); [now apply f_lt|assumption|].
      rewrite f_F. apply F_period.
    - intros x y Hx Hy. destruct (F_reach w x y) as (n & Hn & E).
      exists n. split; [assumption|]. split.
      + apply (cong_small M); [now apply f_lt|assumption|]. now rewrite f_F.
      + intros n' Hn' E'.
        assert (Enn : cong M (N.iter n F x) (N.iter n' F x)).
        { rewrite E. rewrite <- f_F, E'. reflexivity. }
        destruct (N.le_ge_cases n n') as [Hle|Hle].
        * assert (Hd : n' - n = 0).
          { apply (F_no_short_cycle w) with (x := N.iter n F x); [lia|].
            rewrite <- Niter_add. replace (n' - n + n) with n' by lia. now symmetry. }
          lia.
        * assert (Hd : n - n' = 0).
          { apply (F_no_short_cycle w) with (x := N.iter n' F x); [lia|].
            rewrite <- Niter_add. replace (n - n' + n') with n by lia. assumption. }
          lia.
  Qed.
End Period.
