(** The bits of a linear congruential generator: bit k changes after 2^k steps and is back
    after 2^(k+1). *)
From Coq Require Import NArith Arith List Bool Lia Setoid Morphisms.
From Verif Require Import Base.Word Base.WordLemmas Base.Cong Spec.LcrngSpec Spec.BitSpec Model.Compat Model.Lcrng32 Model.Lcrng64
  Model.LcrngClasses Proofs.LcgProofs Proofs.Lcrng32Proofs Proofs.Lcrng64Proofs Proofs.LcrngFinal.
Import ListNotations.
Open Scope N_scope.
Ltac Zify.zify_post_hook ::= idtac.

Section Bits.
  Variables a c : N.
  Hypothesis Ha : exists q, a = 4 * q + 1.
  Hypothesis Hc : exists q, c = 2 * q + 1.
  Variable w : nat.
  Let M := 2 ^ N.of_nat w.
  Let f := aff M (c, a).

  Lemma jump_bits (k : nat) m x : (k < w)%nat ->
    N.iter (m * 2 ^ N.of_nat k) f x mod 2 ^ (N.of_nat k + 1) = (x + m * 2 ^ N.of_nat k) mod 2 ^ (N.of_nat k + 1).
  Proof.
    intros Hk. change (cong (2 ^ (N.of_nat k + 1)) (N.iter (m * 2 ^ N.of_nat k) f x) (x + m * 2 ^ N.of_nat k)).
    rewrite <- (F_blocks a c Ha Hc k m x).
    apply (cong_divide M); [apply N.pow_nonzero; discriminate| |apply (f_F a c)].
    exists (2 ^ (N.of_nat w - (N.of_nat k + 1))). unfold M. rewrite <- N.pow_add_r. f_equal. lia.
  Qed.

  Lemma even_same (k : nat) m x i : (k < w)%nat -> i < N.of_nat k + 1 ->
    N.testbit (N.iter (2 * m * 2 ^ N.of_nat k) f x) i = N.testbit x i.
  Proof.
    intros Hk Hi. rewrite <- (N.mod_pow2_bits_low _ (N.of_nat k + 1) i Hi), (jump_bits k _ x Hk).
    replace (2 * m * 2 ^ N.of_nat k) with (m * 2 ^ (N.of_nat k + 1)) by (rewrite N.pow_add_r; change (2^1) with 2; ring).
    rewrite N.mod_add by (apply N.pow_nonzero; discriminate). now apply N.mod_pow2_bits_low.
  Qed.
  Lemma odd_low (k : nat) m x i : (k < w)%nat -> i < N.of_nat k ->
    N.testbit (N.iter (m * 2 ^ N.of_nat k) f x) i = N.testbit x i.
  Proof.
    intros Hk Hi. rewrite <- (N.mod_pow2_bits_low _ (N.of_nat k + 1) i) by lia. rewrite (jump_bits k _ x Hk).
    rewrite N.mod_pow2_bits_low by lia. rewrite <- (N.mod_pow2_bits_low _ (N.of_nat k) i Hi).
    rewrite N.mod_add by (apply N.pow_nonzero; discriminate). now apply N.mod_pow2_bits_low.
  Qed.
  Lemma odd_flips (k : nat) m x : (k < w)%nat ->
    N.testbit (N.iter ((2 * m + 1) * 2 ^ N.of_nat k) f x) (N.of_nat k) = negb (N.testbit x (N.of_nat k)).
  Proof.
    intros Hk. rewrite <- (N.mod_pow2_bits_low _ (N.of_nat k + 1) (N.of_nat k)) by lia. rewrite (jump_bits k _ x Hk).
    rewrite N.mod_pow2_bits_low by lia.
    rewrite <- (N.add_0_l (N.of_nat k)), <- !N.div_pow2_bits, N.add_0_l.
    rewrite N.div_add by (apply N.pow_nonzero; discriminate). rewrite !N.bit0_odd.
    rewrite N.odd_add, (N.add_comm (2 * m) 1), N.odd_add_mul_2. change (N.odd 1) with true. rewrite xorb_true_r. reflexivity.
  Qed.

  (** A window of bits of the states, from bit [lo] to bit [lo + j]. *)
  Variables lo j : nat.
  Hypothesis Hlo : (lo + j < w)%nat.
  Definition window (x : N) : N := (x / 2 ^ N.of_nat lo) mod 2 ^ (N.of_nat j + 1).
  Lemma window_bits x y :
    window x = window y <-> forall i, i < N.of_nat j + 1 -> N.testbit x (N.of_nat lo + i) = N.testbit y (N.of_nat lo + i).
  Proof.
    unfold window. split.
    - intros E i Hi. apply (f_equal (fun z => N.testbit z i)) in E. rewrite !N.mod_pow2_bits_low, !N.div_pow2_bits in E by exact Hi.
      rewrite N.add_comm. exact E.
    - intros H. apply N.bits_inj. intro i. destruct (N.ltb_spec i (N.of_nat j + 1)) as [L|L].
      + rewrite !N.mod_pow2_bits_low, !N.div_pow2_bits by exact L. rewrite N.add_comm. now apply H.
      + rewrite !N.mod_pow2_bits_high by exact L. reflexivity.
  Qed.

  Variable x : N.
  Definition seq_at (n : N) : N := window (N.iter (n + 1) f x).
  Lemma seq_shift n p : seq_at (n + p) = window (N.iter p f (N.iter (n + 1) f x)).
  Proof. unfold seq_at. rewrite <- Niter_add. f_equal. f_equal. lia. Qed.

  Lemma repeats_mul q : repeats_every seq_at q -> forall m, repeats_every seq_at (m * q).
  Proof.
    intros H m n. induction m using N.peano_ind; [now rewrite N.mul_0_l, N.add_0_r|].
    rewrite N.mul_succ_l, N.add_assoc, H. exact IHm.
  Qed.

  Lemma window_period : least_period seq_at (2 ^ (N.of_nat lo + N.of_nat j + 1)).
  Proof.
    split; [apply N.neq_0_lt_0, N.pow_nonzero; discriminate|]. split.
    - intros n. rewrite seq_shift. unfold seq_at. apply window_bits. intros i Hi.
      replace (2 ^ (N.of_nat lo + N.of_nat j + 1)) with (2 * 1 * 2 ^ N.of_nat (lo + j))
        by (rewrite Nat2N.inj_add, (N.add_1_r (N.of_nat lo + N.of_nat j)), N.pow_succ_r'; ring).
      apply even_same; [exact Hlo|lia].
    - intros q Hq. destruct (N.eq_dec q 0) as [->|Nz]; [now exists 0|].
      destruct (N_two_adic a c q Nz) as (k & m & E).
      destruct (Nat.le_gt_cases (lo + j + 1) k) as [Hk|Hk].
      + exists ((2 * m + 1) * 2 ^ (N.of_nat k - (N.of_nat lo + N.of_nat j + 1))).
        rewrite E, <- N.mul_assoc, <- N.pow_add_r. do 2 f_equal. lia.
      + exfalso.
        assert (C : forall (k : nat) m, (lo <= k <= lo + j)%nat -> repeats_every seq_at ((2 * m + 1) * 2 ^ N.of_nat k) -> False).
        { clear - Hlo Ha Hc. intros k m Hk H. specialize (H 0). rewrite seq_shift in H. unfold seq_at in H. rewrite window_bits in H.
          specialize (H (N.of_nat (k - lo))). assert (L : N.of_nat (k - lo) < N.of_nat j + 1) by lia. specialize (H L).
          replace (N.of_nat lo + N.of_nat (k - lo)) with (N.of_nat k) in H by lia.
          rewrite odd_flips in H by lia. destruct (N.testbit _ _) in H; discriminate. }
        destruct (Nat.le_gt_cases lo k) as [Hl|Hl].
        * apply (C k m); [lia|]. now rewrite <- E.
        * apply (C lo m); [lia|]. replace ((2 * m + 1) * 2 ^ N.of_nat lo) with (2 ^ N.of_nat (lo - k) * q).
          -- now apply repeats_mul.
          -- assert (El : N.of_nat lo = N.of_nat (lo - k) + N.of_nat k) by lia. rewrite E, El, N.pow_add_r. ring.
  Qed.
  Lemma window_flip n :
    N.testbit (N.iter (n + 2 ^ (N.of_nat lo + N.of_nat j) + 1) f x) (N.of_nat lo + N.of_nat j)
    = negb (N.testbit (N.iter (n + 1) f x) (N.of_nat lo + N.of_nat j)).
  Proof.
    replace (n + 2 ^ (N.of_nat lo + N.of_nat j) + 1) with ((2 * 0 + 1) * 2 ^ N.of_nat (lo + j) + (n + 1))
      by (rewrite Nat2N.inj_add; ring).
    rewrite Niter_add, <- Nat2N.inj_add. now apply odd_flips.
  Qed.
End Bits.

(** * The published generators *)
Lemma published32_ok minor p add mult : In p published32 -> consts_of32 minor p = Ok (add, mult) ->
  (exists q, mult = 4 * q + 1) /\ (exists q, add = 2 * q + 1).
Proof.
  intros Hp E. assert (H : hd_ok (consts_of32 minor p) = true).
  { clear E. unfold consts_of32, lcrng32_consts, mod_inv. destruct (minor <? 8);
    repeat (destruct Hp as [<-|Hp]; [vm_compute; reflexivity|]); destruct Hp. }
  rewrite E in H. now apply hd_ok_params.
Qed.
Lemma published64_ok minor p add mult : In p published64 -> consts_of64 minor p = Ok (add, mult) ->
  (exists q, mult = 4 * q + 1) /\ (exists q, add = 2 * q + 1).
Proof.
  intros Hp E. assert (H : hd_ok (consts_of64 minor p) = true).
  { clear E. unfold consts_of64, lcrng64_consts, mod_inv. destruct (minor <? 8);
    repeat (destruct Hp as [<-|Hp]; [vm_compute; reflexivity|]); destruct Hp. }
  rewrite E in H. now apply hd_ok_params.
Qed.

Lemma least_period_ext {R} (f g : N -> R) p : (forall n, f n = g n) -> least_period f p -> least_period g p.
Proof.
  intros E (P & H & D). split; [exact P|]. split.
  - intros n. rewrite <- !E. apply H.
  - intros q Hq. apply D. intros n. rewrite !E. apply Hq.
Qed.
Lemma iter_ext {A} (f g : A -> A) : (forall x, f x = g x) -> forall n x, N.iter n f x = N.iter n g x.
Proof. intros E n x. induction n using N.peano_ind; [reflexivity|]. now rewrite !Niter_succ, IHn, E. Qed.

Lemma high_half s h : ((s mod 2^(h + h)) / 2^h) mod 2^h = (s / 2^h) mod 2^h.
Proof.
  apply N.bits_inj. intro i. destruct (N.ltb_spec i h) as [L|L].
  - rewrite !N.mod_pow2_bits_low, !N.div_pow2_bits by exact L. apply N.mod_pow2_bits_low. lia.
  - rewrite !N.mod_pow2_bits_high by exact L. reflexivity.
Qed.
Lemma mod_mod_pow2 s a b : a <= b -> (s mod 2^b) mod 2^a = s mod 2^a.
Proof.
  intros H. apply N.bits_inj. intro i. destruct (N.ltb_spec i a) as [L|L].
  - rewrite !N.mod_pow2_bits_low by lia. reflexivity.
  - rewrite !N.mod_pow2_bits_high by lia. reflexivity.
Qed.

Lemma nth_next32 add mult s n :
  nth_result (fun s => let s := lcrng32_next add mult s in (s, s)) s n = N.iter (n + 1) (lcrng32_next add mult) s.
Proof. unfold nth_result. cbn [fst snd]. rewrite N.add_1_r, Niter_succ. reflexivity. Qed.
Lemma nth_next64 add mult s n :
  nth_result (fun s => let s := lcrng64_next add mult s in (s, s)) s n = N.iter (n + 1) (lcrng64_next add mult) s.
Proof. unfold nth_result. cbn [fst snd]. rewrite N.add_1_r, Niter_succ. reflexivity. Qed.
Lemma nth_u16 add mult s n :
  nth_result (lcrng32_next_u16 add mult) s n = (N.iter (n + 1) (lcrng32_next add mult) s / 2^16) mod 2^16.
Proof.
  unfold nth_result, lcrng32_next_u16. cbn [fst snd].
  rewrite N.add_1_r, Niter_succ. unfold w16, w32. rewrite N.shiftr_div_pow2. apply (high_half _ 16).
Qed.
Lemma nth_u32 add mult s n :
  nth_result (lcrng64_next_u32 add mult) s n = (N.iter (n + 1) (lcrng64_next add mult) s / 2^32) mod 2^32.
Proof.
  unfold nth_result, lcrng64_next_u32. cbn [fst snd].
  rewrite N.add_1_r, Niter_succ. unfold w64, w32. rewrite N.shiftr_div_pow2. apply (high_half _ 32).
Qed.

Lemma states32 minor p add mult s k : In p published32 -> consts_of32 minor p = Ok (add, mult) -> k < 32 ->
  let f := nth_result (fun s => let s := lcrng32_next add mult s in (s, s)) s in
  least_period (fun n => f n mod 2^(k + 1)) (2^(k + 1)) /\
  forall n, N.testbit (f (n + 2^k)) k = negb (N.testbit (f n) k).
Proof.
  intros Hp Hc Hk f. destruct (published32_ok minor p add mult Hp Hc) as [Hm Ha].
  assert (Hl : (0 + N.to_nat k < 32)%nat) by lia. split.
  - pose proof (window_period mult add Hm Ha 32 0 (N.to_nat k) Hl s) as H. rewrite N2Nat.id in H. change (N.of_nat 0 + k + 1) with (k + 1) in H.
    revert H. apply least_period_ext. intros n. unfold f, seq_at, window. rewrite nth_next32, N2Nat.id.
    change (2 ^ N.of_nat 0) with 1. rewrite N.div_1_r. reflexivity.
  - intros n. pose proof (window_flip mult add Hm Ha 32 0 (N.to_nat k) Hl s n) as H. rewrite N2Nat.id in H. change (N.of_nat 0 + k) with k in H.
    unfold f. rewrite !nth_next32. exact H.
Qed.
Lemma states64 minor p add mult s k : In p published64 -> consts_of64 minor p = Ok (add, mult) -> k < 64 ->
  let f := nth_result (fun s => let s := lcrng64_next add mult s in (s, s)) s in
  least_period (fun n => f n mod 2^(k + 1)) (2^(k + 1)) /\
  forall n, N.testbit (f (n + 2^k)) k = negb (N.testbit (f n) k).
Proof.
  intros Hp Hc Hk f. destruct (published64_ok minor p add mult Hp Hc) as [Hm Ha].
  assert (Hl : (0 + N.to_nat k < 64)%nat) by lia. split.
  - pose proof (window_period mult add Hm Ha 64 0 (N.to_nat k) Hl s) as H. rewrite N2Nat.id in H. change (N.of_nat 0 + k + 1) with (k + 1) in H.
    revert H. apply least_period_ext. intros n. unfold f, seq_at, window. rewrite nth_next64, N2Nat.id.
    change (2 ^ N.of_nat 0) with 1. rewrite N.div_1_r. reflexivity.
  - intros n. pose proof (window_flip mult add Hm Ha 64 0 (N.to_nat k) Hl s n) as H. rewrite N2Nat.id in H. change (N.of_nat 0 + k) with k in H.
    unfold f. rewrite !nth_next64. exact H.
Qed.
Lemma halves32 minor p add mult s k : In p published32 -> consts_of32 minor p = Ok (add, mult) -> k < 16 ->
  let f := nth_result (lcrng32_next_u16 add mult) s in
  least_period (fun n => f n mod 2^(k + 1)) (2^(k + 17)) /\
  forall n, N.testbit (f (n + 2^(k + 16))) k = negb (N.testbit (f n) k).
Proof.
  intros Hp Hc Hk f. destruct (published32_ok minor p add mult Hp Hc) as [Hm Ha].
  assert (Hl : (16 + N.to_nat k < 32)%nat) by lia. split.
  - pose proof (window_period mult add Hm Ha 32 16 (N.to_nat k) Hl s) as H. rewrite N2Nat.id in H.
    replace (N.of_nat 16 + k + 1) with (k + 17) in H by (change (N.of_nat 16) with 16; ring).
    revert H. apply least_period_ext. intros n. unfold f, seq_at, window. rewrite nth_u16, N2Nat.id.
    rewrite mod_mod_pow2 by lia. reflexivity.
  - intros n. pose proof (window_flip mult add Hm Ha 32 16 (N.to_nat k) Hl s n) as H. rewrite N2Nat.id in H.
    change (N.of_nat 16) with 16 in H. rewrite (N.add_comm 16 k) in H.
    unfold f. rewrite !nth_u16, !N.mod_pow2_bits_low, !N.div_pow2_bits by exact Hk. exact H.
Qed.
Lemma halves64 minor p add mult s k : In p published64 -> consts_of64 minor p = Ok (add, mult) -> k < 32 ->
  let f := nth_result (lcrng64_next_u32 add mult) s in
  least_period (fun n => f n mod 2^(k + 1)) (2^(k + 33)) /\
  forall n, N.testbit (f (n + 2^(k + 32))) k = negb (N.testbit (f n) k).
Proof.
  intros Hp Hc Hk f. destruct (published64_ok minor p add mult Hp Hc) as [Hm Ha].
  assert (Hl : (32 + N.to_nat k < 64)%nat) by lia. split.
  - pose proof (window_period mult add Hm Ha 64 32 (N.to_nat k) Hl s) as H. rewrite N2Nat.id in H.
    replace (N.of_nat 32 + k + 1) with (k + 33) in H by (change (N.of_nat 32) with 32; ring).
    revert H. apply least_period_ext. intros n. unfold f, seq_at, window. rewrite nth_u32, N2Nat.id.
    rewrite mod_mod_pow2 by lia. reflexivity.
  - intros n. pose proof (window_flip mult add Hm Ha 64 32 (N.to_nat k) Hl s n) as H. rewrite N2Nat.id in H.
    change (N.of_nat 32) with 32 in H. rewrite (N.add_comm 32 k) in H.
    unfold f. rewrite !nth_u32, !N.mod_pow2_bits_low, !N.div_pow2_bits by exact Hk. exact H.
Qed.

(** * Coin flips *)
Definition flipped (r : res N) : res N := match r with Ok v => Ok (1 - v) | e => e end.
Lemma rand_state32 m d add mult s : d <> D32_NONE ->
  fst (lcrng32_next_rand m d add mult s 2) = fst (lcrng32_next_u16 add mult s).
Proof. now destruct d. Qed.
Lemma nth_rand32 m d add mult s n : d <> D32_NONE ->
  nth_result (fun s => lcrng32_next_rand m d add mult s 2) s n
  = match d with
    | D32_MODULO => Ok (nth_result (lcrng32_next_u16 add mult) s n mod 2)
    | _ => Ok (nth_result (lcrng32_next_u16 add mult) s n / 2^15)
    end.
Proof.
  intros Hd. unfold nth_result.
  rewrite (iter_ext _ _ (fun s => rand_state32 m d add mult s Hd)).
  destruct d; try contradiction; unfold lcrng32_next_rand, lcrng32_next_u16; cbn [snd].
  - rewrite (w16_small (w16 _)) by apply w16_lt. destruct m; reflexivity.
  - rewrite (w16_small (w16 _)) by apply w16_lt. destruct m; reflexivity.
Qed.
Lemma bit_top v : v < 2^16 -> v / 2^15 = N.b2n (N.testbit v 15).
Proof.
  intros H. rewrite <- (N.add_0_l 15), <- N.div_pow2_bits, N.add_0_l, N.bit0_odd.
  assert (L : v / 2^15 < 2) by (apply N.div_lt_upper_bound; [discriminate|exact H]).
  destruct (v / 2^15) as [|[q|q|]]; try reflexivity; destruct q; discriminate.
Qed.
Lemma coin32 minor p add mult s m n : In p published32 -> consts_of32 minor p = Ok (add, mult) ->
  let f d := nth_result (fun s => lcrng32_next_rand m d add mult s 2) s in
  f D32_MODULO (n + 2^16) = flipped (f D32_MODULO n) /\
  f D32_RECIPROCAL_DIVISION (n + 2^31) = flipped (f D32_RECIPROCAL_DIVISION n) /\
  forall q, repeats_every (f D32_RECIPROCAL_DIVISION) q -> exists k, q = k * 2^32.
Proof.
  intros Hp Hc f. unfold f.
  assert (D1 : D32_MODULO <> D32_NONE) by discriminate. assert (D2 : D32_RECIPROCAL_DIVISION <> D32_NONE) by discriminate.
  rewrite !(nth_rand32 m _ add mult s _ D1), !(nth_rand32 m _ add mult s _ D2). unfold flipped.
  assert (L : forall n, nth_result (lcrng32_next_u16 add mult) s n < 2^16) by (intros k; unfold nth_result; apply w16_lt).
  split; [|split].
  - pose proof (proj2 (halves32 minor p add mult s 0 Hp Hc eq_refl) n) as H. change (0 + 16) with 16 in H.
    rewrite <- !N.bit0_mod, H. generalize (N.testbit (nth_result (lcrng32_next_u16 add mult) s n) 0). intros b. destruct b; reflexivity.
  - pose proof (proj2 (halves32 minor p add mult s 15 Hp Hc eq_refl) n) as H. change (15 + 16) with 31 in H.
    rewrite !bit_top, H by apply L. generalize (N.testbit (nth_result (lcrng32_next_u16 add mult) s n) 15). intros b. destruct b; reflexivity.
  - intros q Hq. destruct (published32_ok minor p add mult Hp Hc) as [Hm Ha].
    pose proof (window_period mult add Hm Ha 32 31 0 ltac:(lia) s) as (_ & _ & H). apply (H q).
    intros k. specialize (Hq k). rewrite !(nth_rand32 m _ add mult s _ D2) in Hq. injection Hq as Hq.
    rewrite !bit_top in Hq by apply L.
    rewrite !nth_u16, !N.mod_pow2_bits_low, !N.div_pow2_bits in Hq by reflexivity. change (15 + 16) with 31 in Hq.
    unfold seq_at. apply window_bits. intros i Hi. replace (N.of_nat 31 + i) with 31 by lia.
    change (aff (2 ^ N.of_nat 32) (add, mult)) with (lcrng32_next add mult).
    apply N.b2n_inj. exact Hq.
Qed.
