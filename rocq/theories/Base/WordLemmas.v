(** Lemmas about words, arrays and loops. *)
From Coq Require Import NArith ZArith List Bool Lia Btauto.
From Coq Require Import ZifyBool ZifyNat ZifyN.
From Verif Require Import Base.Word.
Import ListNotations.
Open Scope N_scope.

Ltac Zify.zify_post_hook ::= Z.div_mod_to_equations.

Lemma w8_lt x : w8 x < 256. Proof. unfold w8; lia. Qed.
Lemma w16_lt x : w16 x < 65536. Proof. unfold w16; lia. Qed.
Lemma w32_lt x : w32 x < 4294967296. Proof. unfold w32; lia. Qed.
Lemma w64_lt x : w64 x < 18446744073709551616. Proof. unfold w64; lia. Qed.

Lemma w8_small x : x < 256 -> w8 x = x. Proof. apply N.mod_small. Qed.
Lemma w16_small x : x < 65536 -> w16 x = x. Proof. apply N.mod_small. Qed.
Lemma w32_small x : x < 4294967296 -> w32 x = x. Proof. apply N.mod_small. Qed.
Lemma w64_small x : x < 18446744073709551616 -> w64 x = x. Proof. apply N.mod_small. Qed.

Lemma w32_w32 x : w32 (w32 x) = w32 x. Proof. apply w32_small, w32_lt. Qed.
Lemma w64_w64 x : w64 (w64 x) = w64 x. Proof. apply w64_small, w64_lt. Qed.
Lemma w16_w16 x : w16 (w16 x) = w16 x. Proof. apply w16_small, w16_lt. Qed.
Lemma w8_w8 x : w8 (w8 x) = w8 x. Proof. apply w8_small, w8_lt. Qed.

Lemma w8_bits x n : N.testbit (w8 x) n = (n <? 8) && N.testbit x n.
Proof.
  unfold w8. change 256 with (2^8). destruct (N.ltb_spec n 8).
  - now rewrite N.mod_pow2_bits_low.
  - now rewrite N.mod_pow2_bits_high.
Qed.
Lemma w16_bits x n : N.testbit (w16 x) n = (n <? 16) && N.testbit x n.
Proof.
  unfold w16. change 65536 with (2^16). destruct (N.ltb_spec n 16).
  - now rewrite N.mod_pow2_bits_low.
  - now rewrite N.mod_pow2_bits_high.
Qed.
Lemma w32_bits x n : N.testbit (w32 x) n = (n <? 32) && N.testbit x n.
Proof.
  unfold w32. change 4294967296 with (2^32). destruct (N.ltb_spec n 32).
  - now rewrite N.mod_pow2_bits_low.
  - now rewrite N.mod_pow2_bits_high.
Qed.
Lemma w64_bits x n : N.testbit (w64 x) n = (n <? 64) && N.testbit x n.
Proof.
  unfold w64. change 18446744073709551616 with (2^64). destruct (N.ltb_spec n 64).
  - now rewrite N.mod_pow2_bits_low.
  - now rewrite N.mod_pow2_bits_high.
Qed.

Lemma shiftl_bits x k n : N.testbit (N.shiftl x k) n = (k <=? n) && N.testbit x (n - k).
Proof.
  destruct (N.leb_spec k n).
  - now rewrite N.shiftl_spec_high'.
  - now rewrite N.shiftl_spec_low.
Qed.
Lemma shiftr_bits x k n : N.testbit (N.shiftr x k) n = N.testbit x (n + k).
Proof. apply N.shiftr_spec'. Qed.

(** A number is below 2^k iff its bits from k up are false. *)
Lemma lt_pow2_bits x k : x < 2^k <-> (forall n, k <= n -> N.testbit x n = false).
Proof.
  split.
  - intros H n Hn. destruct (N.eq_dec x 0) as [->|Hx]; [apply N.bits_0|].
    apply N.bits_above_log2.
    apply N.log2_lt_pow2 in H; lia.
  - intros H. destruct (N.lt_ge_cases x (2^k)) as [|Hge]; [assumption|exfalso].
    assert (Hx : x <> 0) by (pose proof (N.pow_nonzero 2 k); lia).
    assert (Hl : k <= N.log2 x) by (apply N.log2_le_pow2; lia).
    pose proof (N.bit_log2 x Hx) as Hb. rewrite H in Hb by assumption. discriminate.
Qed.

Lemma bits_above_lt x k n : x < 2^k -> k <= n -> N.testbit x n = false.
Proof. intros H. now apply lt_pow2_bits. Qed.

Lemma lxor_lt a b k : a < 2^k -> b < 2^k -> N.lxor a b < 2^k.
Proof.
  intros Ha Hb. apply lt_pow2_bits. intros n Hn.
  rewrite N.lxor_spec, !(bits_above_lt _ k) by assumption. reflexivity.
Qed.
Lemma lor_lt a b k : a < 2^k -> b < 2^k -> N.lor a b < 2^k.
Proof.
  intros Ha Hb. apply lt_pow2_bits. intros n Hn.
  rewrite N.lor_spec, !(bits_above_lt _ k) by assumption. reflexivity.
Qed.
Lemma land_lt_l a b k : a < 2^k -> N.land a b < 2^k.
Proof.
  intros Ha. apply lt_pow2_bits. intros n Hn.
  rewrite N.land_spec, (bits_above_lt a k) by assumption. reflexivity.
Qed.
Lemma land_lt_r a b k : b < 2^k -> N.land a b < 2^k.
Proof.
  intros Ha. apply lt_pow2_bits. intros n Hn.
  rewrite N.land_spec, (bits_above_lt b k) by assumption. apply andb_false_r.
Qed.
Lemma shiftr_lt a s k : a < 2^k -> N.shiftr a s < 2^k.
Proof.
  intros Ha. apply lt_pow2_bits. intros n Hn.
  rewrite shiftr_bits, (bits_above_lt a k) by (assumption || lia). reflexivity.
Qed.
Lemma land_le_l a b : N.land a b <= a.
Proof.
  apply N.ldiff_le. apply N.bits_inj; intro n.
  rewrite N.ldiff_spec, N.land_spec, N.bits_0. btauto.
Qed.
Lemma land_le_r a b : N.land a b <= b.
Proof. rewrite N.land_comm. apply land_le_l. Qed.

Definition lxor_lt32 a b : a < 4294967296 -> b < 4294967296 -> N.lxor a b < 4294967296 := lxor_lt a b 32.
Definition lor_lt32 a b : a < 4294967296 -> b < 4294967296 -> N.lor a b < 4294967296 := lor_lt a b 32.
Definition land_lt32_l a b : a < 4294967296 -> N.land a b < 4294967296 := land_lt_l a b 32.
Definition land_lt32_r a b : b < 4294967296 -> N.land a b < 4294967296 := land_lt_r a b 32.
Definition shiftr_lt32 a s : a < 4294967296 -> N.shiftr a s < 4294967296 := shiftr_lt a s 32.
Definition lxor_lt64 a b : a < 18446744073709551616 -> b < 18446744073709551616 -> N.lxor a b < 18446744073709551616 := lxor_lt a b 64.
Definition lor_lt64 a b : a < 18446744073709551616 -> b < 18446744073709551616 -> N.lor a b < 18446744073709551616 := lor_lt a b 64.
Definition land_lt64_l a b : a < 18446744073709551616 -> N.land a b < 18446744073709551616 := land_lt_l a b 64.
Definition land_lt64_r a b : b < 18446744073709551616 -> N.land a b < 18446744073709551616 := land_lt_r a b 64.
Definition shiftr_lt64 a s : a < 18446744073709551616 -> N.shiftr a s < 18446744073709551616 := shiftr_lt a s 64.

Lemma testbit_small32 x n : x < 4294967296 -> 32 <= n -> N.testbit x n = false.
Proof. exact (bits_above_lt x 32 n). Qed.
Lemma testbit_small64 x n : x < 18446744073709551616 -> 64 <= n -> N.testbit x n = false.
Proof. exact (bits_above_lt x 64 n). Qed.

(** Rewrite a [testbit] of a word expression into a boolean expression over the
    bits of its atoms. *)
#[global] Hint Rewrite N.lxor_spec N.land_spec N.lor_spec N.ldiff_spec shiftl_bits shiftr_bits
  w8_bits w16_bits w32_bits w64_bits N.bits_0 : wbits.

(** Case analysis over n < k for a concrete k. *)
Lemma N_lt_cases n k : n < k -> n = k - 1 \/ n < k - 1.
Proof. lia. Qed.

(** Arrays. *)
Lemma aset_length {A} (l : list A) i v : length (aset l i v) = length l.
Proof. revert i; induction l; destruct i; simpl; auto. Qed.
Lemma nth_aset_eq {A} (l : list A) i v d : (i < length l)%nat -> nth i (aset l i v) d = v.
Proof. revert i; induction l; destruct i; simpl; intros; try lia; auto. apply IHl; lia. Qed.
Lemma nth_aset_ne {A} (l : list A) i j v d : i <> j -> nth j (aset l i v) d = nth j l d.
Proof. revert i j; induction l; destruct i, j; simpl; intros; auto; try lia. Qed.
Lemma aget_aset_eq l i v : (i < length l)%nat -> aget (aset l i v) i = v.
Proof. apply nth_aset_eq. Qed.
Lemma aget_aset_ne l i j v : i <> j -> aget (aset l i v) j = aget l j.
Proof. apply nth_aset_ne. Qed.
Lemma aget_aset l i j v : (i < length l)%nat ->
  aget (aset l i v) j = if Nat.eqb i j then v else aget l j.
Proof.
  intros H. destruct (Nat.eqb_spec i j) as [->|Hne].
  - now apply aget_aset_eq.
  - now apply aget_aset_ne.
Qed.
Lemma list_eq_aget (l1 l2 : list N) : length l1 = length l2 ->
  (forall i, (i < length l1)%nat -> aget l1 i = aget l2 i) -> l1 = l2.
Proof. intros. apply nth_ext with (d := 0) (d' := 0); auto. Qed.

(** Loop rule: an invariant indexed by the loop variable. *)
Lemma for_range_inv {S} (P : nat -> S -> Prop) body n lo s :
  P lo s ->
  (forall i s, (lo <= i < lo + n)%nat -> P i s -> P (Datatypes.S i) (body i s)) ->
  P (lo + n)%nat (for_range n lo body s).
Proof.
  revert lo s. induction n; intros lo s H0 Hs; simpl.
  - now rewrite Nat.add_0_r.
  - rewrite <- Nat.add_succ_comm. apply IHn.
    + apply Hs; [lia|assumption].
    + intros i s' Hi. apply Hs. lia.
Qed.

Lemma for_range_ext {S} (b1 b2 : nat -> S -> S) n lo s :
  (forall i s, (lo <= i < lo + n)%nat -> b1 i s = b2 i s) ->
  for_range n lo b1 s = for_range n lo b2 s.
Proof.
  revert lo s. induction n; intros lo s H; simpl; [reflexivity|].
  rewrite H by lia. apply IHn. intros; apply H; lia.
Qed.

(** Iteration. *)
Lemma Niter_succ {A} (f : A -> A) n x : N.iter (N.succ n) f x = f (N.iter n f x).
Proof. apply N.iter_succ. Qed.
Lemma Niter_succ_r {A} (f : A -> A) n x : N.iter (N.succ n) f x = N.iter n f (f x).
Proof. apply N.iter_succ_r. Qed.
Lemma Niter_add {A} (f : A -> A) n m x : N.iter (n + m) f x = N.iter n f (N.iter m f x).
Proof. apply N.iter_add. Qed.
Lemma Niter_inv {A} (P : A -> Prop) f n x : (forall y, P y -> P (f y)) -> P x -> P (N.iter n f x).
Proof. intros H H0. apply N.iter_invariant; auto. Qed.
Lemma Niter_swap {A} (f g : A -> A) n x : (forall y, g (f y) = y) -> N.iter n g (N.iter n f x) = x.
Proof.
  intros H. revert x. induction n using N.peano_ind; intros x; [reflexivity|].
  rewrite (Niter_succ_r g), Niter_succ, H. apply IHn.
Qed.
Lemma Niter_ext {A} (f g : A -> A) n x : (forall y, f y = g y) -> N.iter n f x = N.iter n g x.
Proof.
  intros H. induction n using N.peano_ind; [reflexivity|].
  now rewrite !Niter_succ, IHn, H.
Qed.
Lemma Niter_mul {A} (f : A -> A) n m x : N.iter (n * m) f x = N.iter n (N.iter m f) x.
Proof.
  induction n using N.peano_ind; [reflexivity|].
  rewrite N.mul_succ_l, N.add_comm, Niter_add, Niter_succ, IHn. reflexivity.
Qed.

(** ** bounds-checked accesses *)
Lemma agetr_ok l i : (i < length l)%nat -> agetr l i = Ok (aget l i).
Proof.
  intros H. unfold agetr, aget. destruct (nth_error l i) eqn:E.
  - now rewrite (nth_error_nth _ _ 0 E).
  - apply nth_error_None in E. lia.
Qed.
Lemma asetr_ok {A} (l : list A) i v : (i < length l)%nat -> asetr l i v = Ok (aset l i v).
Proof. intros H. unfold asetr. destruct (Nat.ltb_spec i (length l)); [reflexivity|lia]. Qed.
Lemma for_range_r_ok {S} (P : S -> Prop) (bodyr : nat -> S -> res S) body n : forall lo s,
  P s -> (forall i s, (lo <= i < lo + n)%nat -> P s -> bodyr i s = Ok (body i s) /\ P (body i s)) ->
  for_range_r n lo bodyr s = Ok (for_range n lo body s) /\ P (for_range n lo body s).
Proof.
  induction n as [|n IH]; intros lo s Hs H; cbn [for_range_r for_range]; [auto|].
  destruct (H lo s ltac:(lia) Hs) as [E Hp]. rewrite E. cbn [rbind].
  apply IH; [assumption|]. intros i s' Hi. apply H. lia.
Qed.

(** ** or as addition *)
Lemma lor_add a b : N.land a b = 0 -> N.lor a b = a + b.
Proof.
  intros H. rewrite N.add_nocarry_lxor by assumption. symmetry. now apply N.lxor_lor.
Qed.
Lemma lor_shiftl_add x k y : y < 2^k -> N.lor (N.shiftl x k) y = x * 2^k + y.
Proof.
  intros H. rewrite lor_add, N.shiftl_mul_pow2; [reflexivity|].
  apply N.bits_inj; intro n. rewrite N.land_spec, shiftl_bits, N.bits_0.
  destruct (N.leb_spec k n); [|reflexivity].
  rewrite (bits_above_lt y k) by assumption. apply andb_false_r.
Qed.
