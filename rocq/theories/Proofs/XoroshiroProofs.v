From Coq Require Import NArith ZArith List Bool Lia Btauto Setoid Morphisms Morphisms_Prop.
From Coq Require Import ZifyBool ZifyNat ZifyN.
From Verif Require Import Base.Word Base.WordLemmas Model.Util Model.Xoroshiro Spec.XorshiftSpec.
From Verif Require Import Proofs.GF2 Proofs.Orbit Proofs.GF2Period Proofs.TinyProofs Proofs.XorshiftProofs.
Import ListNotations.
Open Scope N_scope.
Ltac Zify.zify_post_hook ::= idtac.

(** ** rotations *)
Lemma rotl64_bits v k n : v < 2^64 -> 0 < k < 64 ->
  N.testbit (rotl64 v k) n = (n <? 64) && N.testbit v ((n + 64 - k) mod 64).
Proof.
  intros Hv Hk. unfold rotl64, rotl64_raw. rewrite (w64_small v) by assumption.
  rewrite w64_bits, N.lor_spec, shiftl_bits, shiftr_bits.
  destruct (N.ltb_spec n 64); [|reflexivity]. cbn [andb].
  destruct (N.leb_spec k n).
  - replace (n + 64 - k) with (n - k + 1 * 64) by lia.
    rewrite N.mod_add, N.mod_small by lia. cbn [andb].
    rewrite (testbit_small64 v (n + (64 - k))) by (assumption || lia). apply orb_false_r.
  - cbn [andb orb]. f_equal. rewrite N.mod_small; lia.
Qed.
Lemma rotr64_bits v k n : v < 2^64 -> 0 < k < 64 ->
  N.testbit (rotr64 v k) n = (n <? 64) && N.testbit v ((n + k) mod 64).
Proof.
  intros Hv Hk. unfold rotr64, rotr64_raw. rewrite (w64_small v) by assumption.
  rewrite w64_bits, N.lor_spec, shiftl_bits, shiftr_bits.
  destruct (N.ltb_spec n 64); [|reflexivity]. cbn [andb].
  destruct (N.leb_spec (64 - k) n).
  - replace (n + k) with (n - (64 - k) + 1 * 64) by lia.
    rewrite N.mod_add, N.mod_small by lia. cbn [andb].
    rewrite (testbit_small64 v (n - (64 - k) + 1 * 64)) by (assumption || lia). apply orb_false_r.
  - cbn [andb orb]. f_equal. rewrite N.mod_small; lia.
Qed.
Lemma rotl64_lt v k : rotl64 v k < 2^64.
Proof. apply w64_lt. Qed.
Lemma rotr64_lt v k : rotr64 v k < 2^64.
Proof. apply w64_lt. Qed.
Lemma rotr_rotl v k : v < 2^64 -> 0 < k < 64 -> rotr64 (rotl64 v k) k = v.
Proof.
  intros Hv Hk. apply N.bits_inj; intro n.
  rewrite rotr64_bits, rotl64_bits by (assumption || apply rotl64_lt).
  destruct (N.ltb_spec n 64); cbn [andb]; [|now rewrite testbit_small64].
  destruct (N.ltb_spec ((n + k) mod 64) 64) as [_|B].
  2:{ pose proof (N.mod_lt (n + k) 64 ltac:(discriminate)). lia. }
  cbn [andb]. f_equal.
  destruct (N.lt_ge_cases (n + k) 64) as [L|L].
  - rewrite (N.mod_small (n + k)) by lia. replace (n + k + 64 - k) with (n + 1 * 64) by lia.
    rewrite N.mod_add, N.mod_small by lia. reflexivity.
  - replace (n + k) with (n + k - 64 + 1 * 64) by lia. rewrite N.mod_add, (N.mod_small (n + k - 64)) by lia.
    replace (n + k - 64 + 64 - k) with n by lia. now apply N.mod_small.
Qed.
Lemma rotl64_lxor v k : v < 2^64 -> 0 < k < 64 ->
  rotl64 v k = N.lxor (shl64 v k) (N.shiftr v (64 - k)).
Proof.
  intros Hv Hk. apply N.bits_inj; intro n. unfold rotl64, rotl64_raw.
  rewrite (w64_small v) by assumption. unfold shl64.
  rewrite w64_bits, N.lor_spec, N.lxor_spec, w64_bits, shiftl_bits, shiftr_bits.
  destruct (N.ltb_spec n 64); cbn [andb].
  - destruct (N.leb_spec k n); cbn [andb]; [|now destruct (N.testbit v _)].
    rewrite (testbit_small64 v (n + (64 - k))) by (assumption || lia). now destruct (N.testbit v _).
  - now rewrite (testbit_small64 v (n + (64 - k))) by (assumption || lia).
Qed.
Lemma rotl64_spec v k : v < 2^64 -> 0 < k < 64 -> rotl64 v k = rot64 v k.
Proof.
  intros Hv Hk. rewrite rotl64_lxor by assumption. unfold rot64, shl64, w64.
  change 18446744073709551616 with (2^64).
  rewrite N.shiftl_mul_pow2, N.shiftr_div_pow2. symmetry. apply N.add_nocarry_lxor.
  apply N.bits_inj; intro n. rewrite N.land_spec, N.bits_0, <- N.shiftl_mul_pow2, <- N.shiftr_div_pow2.
  change (N.shiftl v k mod 2^64) with (w64 (N.shiftl v k)). rewrite w64_bits, shiftl_bits, shiftr_bits.
  destruct (N.ltb_spec n 64); [|reflexivity]. destruct (N.leb_spec k n); [|reflexivity].
  rewrite (testbit_small64 v (n + (64 - k))) by (assumption || lia). apply andb_false_r.
Qed.
Lemma rotl64_linear_on k : 0 < k < 64 -> forall v, v < 2^64 ->
  rotl64 v k = (fun v => N.lxor ((N.shiftl v k) mod 2^64) (N.shiftr v (64 - k))) v.
Proof. intros Hk v Hv. now rewrite rotl64_lxor. Qed.

(** ** state *)
Lemma lxor64 a b : a < 2^64 -> b < 2^64 -> N.lxor a b < 2^64.
Proof. apply (lxor_lt a b 64). Qed.
Definition xoA (a b : N) : N := N.lxor (N.lxor (rotl64 a 24) (N.lxor b a)) (shl64 (N.lxor b a) 16).
Definition xoB (a b : N) : N := rotl64 (N.lxor b a) 37.
Lemma xo_step_eq a b : xo_step [a; b] = [xoA a b; xoB a b].
Proof. reflexivity. Qed.
Lemma xoA_lt a b : a < 2^64 -> b < 2^64 -> xoA a b < 2^64.
Proof. intros. unfold xoA. repeat apply lxor64; try assumption; apply w64_lt. Qed.
Lemma xo_words_step st : xo_words st -> xo_words (xo_step st).
Proof.
  intros (a & b & -> & Ha & Hb). rewrite xo_step_eq. exists (xoA a b), (xoB a b).
  split; [reflexivity|]. split; [now apply xoA_lt|apply rotl64_lt].
Qed.
Lemma xo_step_ref st : xo_words st -> xo_step st = xoroshiro_next st.
Proof.
  intros (a & b & -> & Ha & Hb). rewrite xo_step_eq. unfold xoroshiro_next, xoA, xoB. cbv zeta.
  rewrite (N.lxor_comm b a). assert (N.lxor a b < 2^64) by now apply lxor64.
  rewrite !rotl64_spec by (assumption || easy). unfold shl64, w64. now rewrite N.shiftl_mul_pow2.
Qed.
Lemma xo_advance_step st n : xo_advance st n = N.iter n xo_step st.
Proof. unfold xo_advance. apply Niter_ext. reflexivity. Qed.
Lemma sm_advance_step st n : sm_advance st n = N.iter n xo_step st.
Proof. unfold sm_advance. apply Niter_ext. reflexivity. Qed.
Lemma xo_words_iter st n : xo_words st -> xo_words (N.iter n xo_step st).
Proof. intros H. apply Niter_inv; [apply xo_words_step|exact H]. Qed.

Lemma xo_back_step st : xo_words st -> xo_back (xo_step st) = st.
Proof.
  intros (a & b & -> & Ha & Hb). rewrite xo_step_eq. unfold xo_back. cbv zeta. cbn [aget aset nth].
  unfold xoB. assert (Hx : N.lxor b a < 2^64) by now apply lxor64.
  rewrite (rotr_rotl _ 37) by (assumption || easy).
  assert (E : N.lxor (N.lxor (xoA a b) (N.lxor b a)) (shl64 (N.lxor b a) 16) = rotl64 a 24).
  { unfold xoA. generalize (rotl64 a 24) (N.lxor b a). intros r x. generalize (shl64 x 16). intros y.
    apply N.bits_inj; intro n. rewrite !N.lxor_spec. btauto. }
  rewrite E, rotr_rotl by (assumption || easy).
  now rewrite N.lxor_assoc, N.lxor_nilpotent, N.lxor_0_r.
Qed.

(** ** the packed state *)
Definition opack (st : list N) : N := aget st 0 + 2^64 * aget st 1.
Definition lo64 (v : N) : N := N.land v 0xFFFFFFFFFFFFFFFF.
Lemma lo64_mod v : lo64 v = v mod 2^64.
Proof. exact (N.land_ones v 64). Qed.
Lemma lo64_linear : linear lo64.
Proof. apply linear_land. Qed.
Definition lrot (k v : N) : N := N.lxor (lo64 (N.shiftl v k)) (N.shiftr v (64 - k)).
Definition oX (x : N) : N := N.lxor (N.shiftr x 64) (lo64 x).
Definition oT2 (a x : N) : N :=
  N.lxor (N.lxor (N.lxor (lrot 24 a) x) (lo64 (N.shiftl x 16))) (N.shiftl (lrot 37 x) 64).
Definition oT (x : N) : N := oT2 (lo64 x) (oX x).

Lemma lrot_linear k : linear (lrot k).
Proof.
  apply (linear_lxor (fun v => lo64 (N.shiftl v k))); [|apply linear_shiftr].
  apply (linear_comp lo64 (fun a => N.shiftl a k)); [apply lo64_linear|apply linear_shiftl].
Qed.
Lemma oX_linear : linear oX.
Proof. apply (linear_lxor (fun x => N.shiftr x 64)); [apply linear_shiftr|apply lo64_linear]. Qed.
Lemma oT_linear : linear oT.
Proof.
  apply (linear_lxor (fun x => N.lxor (N.lxor (lrot 24 (lo64 x)) (oX x)) (lo64 (N.shiftl (oX x) 16)))).
  - apply (linear_lxor (fun x => N.lxor (lrot 24 (lo64 x)) (oX x))).
    + apply (linear_lxor (fun x => lrot 24 (lo64 x))); [|apply oX_linear].
      apply (linear_comp (lrot 24)); [apply lrot_linear|apply lo64_linear].
    + apply (linear_comp lo64); [apply lo64_linear|].
      apply (linear_comp (fun a => N.shiftl a 16)); [apply linear_shiftl|apply oX_linear].
  - apply (linear_comp (fun a => N.shiftl a 64)); [apply linear_shiftl|].
    apply (linear_comp (lrot 37)); [apply lrot_linear|apply oX_linear].
Qed.

Lemma opack_lt st : xo_words st -> opack st < 2^128.
Proof.
  intros (a & b & -> & Ha & Hb). unfold opack. cbn [aget nth]. change 128 with (64 + 64). now apply lo_hi_lt.
Qed.
Lemma opack_inj st st' : xo_words st -> xo_words st' -> opack st = opack st' -> st = st'.
Proof.
  intros (a & b & -> & Ha & Hb) (a' & b' & -> & Ha' & Hb') E. unfold opack in E. cbn [aget nth] in E.
  apply pair_inj in E; [|assumption..]. now destruct E as [-> ->].
Qed.
Lemma opack_step st : xo_words st -> opack (xo_step st) = oT (opack st).
Proof.
  intros (a & b & -> & Ha & Hb). rewrite xo_step_eq. unfold opack, oT, oT2, oX. cbn [aget nth].
  rewrite lo64_mod, (mod_lo 64 a), (shr_hi 64 a) by assumption.
  assert (Hx : N.lxor b a < 2^64) by now apply lxor64.
  unfold xoA, xoB. rewrite !rotl64_lxor by (assumption || easy).
  change (shl64 ?x ?k) with ((N.shiftl x k) mod 2^64). rewrite <- !lo64_mod. fold (lrot 24 a) (lrot 37 (N.lxor b a)).
  symmetry. apply lxor_shiftl_add.
  assert (M : forall z, lo64 z < 2^64) by (intros; rewrite lo64_mod; apply N.mod_lt; discriminate).
  unfold lrot. repeat first [assumption|apply lxor64|apply M|apply (shiftr_lt _ _ 64)].
Qed.
Lemma opack_iter st n : xo_words st -> opack (N.iter n xo_step st) = N.iter n oT (opack st).
Proof.
  intros H. induction n as [|n IH] using N.peano_ind; [reflexivity|].
  rewrite !Niter_succ, <- IH. apply opack_step. now apply xo_words_iter.
Qed.
Lemma opack_unpack v : v < 2^128 -> exists st, xo_words st /\ opack st = v.
Proof.
  intros H. exists [v mod 2^64; v / 2^64]. split.
  - exists (v mod 2^64), (v / 2^64). split; [reflexivity|]. split; [apply N.mod_lt; discriminate|].
    apply N.div_lt_upper_bound; [discriminate|exact H].
  - unfold opack. cbn [aget nth]. rewrite N.add_comm. symmetry. apply N.div_mod. discriminate.
Qed.
Lemma oT_bound x : x < 2^128 -> oT x < 2^128.
Proof.
  intros H. destruct (opack_unpack x H) as (st & Hst & <-). rewrite <- opack_step by exact Hst.
  apply opack_lt. now apply xo_words_step.
Qed.

Definition oP : N := 0x10008828e513b43d5095b8f76579aa001.
Definition oInv : list (N * N) := Eval vm_compute in inverses oP 128 M128 ps128.
Lemma oT_annih : forallb (fun c => c =? 0) (mat 128 (ev oT oP)) = true.
Proof. now vm_compute. Qed.
Lemma oT_period x : x < 2^128 -> x <> 0 ->
  N.iter (Npos M128) oT x = x /\ (forall d, N.iter d oT x = x -> N.divide (Npos M128) d) /\
  (forall y, y < 2^128 -> y <> 0 -> exists i, i < Npos M128 /\ N.iter i oT x = y).
Proof.
  apply (full_period oT oP 128 oT_linear 128 eq_refl M128) with (ps := ps128) (inv := lookup oInv).
  - now vm_compute.
  - exact oT_bound.
  - exact oT_annih.
  - now vm_compute.
  - exact ps128_prime.
  - exact ps128_fac.
  - now vm_compute.
Qed.

Lemma xo_zero_words : xo_words xo_zero.
Proof. exists 0, 0. now repeat split. Qed.
Lemma opack_zero st : xo_words st -> opack st = 0 -> st = xo_zero.
Proof. intros H E. apply opack_inj; [exact H|exact xo_zero_words|now rewrite E]. Qed.

Theorem xo_full_period st : xo_words st -> st <> xo_zero ->
  N.iter (2^128 - 1) xo_step st = st /\
  (forall d, N.iter d xo_step st = st -> N.divide (2^128 - 1) d) /\
  (forall st', xo_words st' -> st' <> xo_zero -> exists i, i < 2^128 - 1 /\ N.iter i xo_step st = st').
Proof.
  intros H H0. assert (P0 : opack st <> 0) by (intros E; apply H0; now apply opack_zero).
  destruct (oT_period (opack st) (opack_lt st H) P0) as (A & B & C).
  replace (2^128 - 1) with (Npos M128) by reflexivity.
  split; [|split].
  - apply opack_inj; [apply xo_words_iter; exact H|exact H|]. rewrite opack_iter by exact H. exact A.
  - intros d E. apply B. rewrite <- opack_iter by exact H. rewrite E. reflexivity.
  - intros st' H' H0'. destruct (C (opack st') (opack_lt st' H')) as (i & Hi & E).
    + intros E. apply H0'. apply opack_zero; assumption.
    + exists i. split; [exact Hi|]. apply opack_inj; [apply xo_words_iter; exact H|exact H'|].
      rewrite opack_iter by exact H. exact E.
Qed.

Lemma xo_pred_gen st M : xo_words st -> 0 < M -> N.iter M xo_step st = st ->
  exists st', xo_words st' /\ xo_step st' = st.
Proof.
  intros H HM A. exists (N.iter (N.pred M) xo_step st). split; [now apply xo_words_iter|].
  rewrite <- Niter_succ, N.succ_pred by lia. exact A.
Qed.
Lemma xo_pred st : xo_words st -> exists st', xo_words st' /\ xo_step st' = st.
Proof.
  intros H. destruct (list_eq_dec N.eq_dec st xo_zero) as [->|H0].
  - exists xo_zero. split; [exact xo_zero_words|]. now vm_compute.
  - destruct (xo_full_period st H H0) as (A & _).
    revert A. apply (xo_pred_gen st (2^128 - 1) H). reflexivity.
Qed.
Lemma xo_step_back st : xo_words st -> xo_words (xo_back st) /\ xo_step (xo_back st) = st.
Proof.
  intros H. destruct (xo_pred st H) as (st' & H' & <-). now rewrite xo_back_step.
Qed.

(** ** bit_mask *)
Definition fill1 (v : N) : N :=
  let v := N.lor v (N.shiftr v 1) in
  let v := N.lor v (N.shiftr v 2) in
  let v := N.lor v (N.shiftr v 4) in
  let v := N.lor v (N.shiftr v 8) in
  N.lor v (N.shiftr v 16).
(** bits n..n+w-1 *)
Definition smear (w : N) (v r : N) : Prop :=
  forall n, N.testbit r n = true <-> exists i, i < w /\ N.testbit v (n + i) = true.
Lemma smear_step w v r : smear w v r -> smear (w + w) v (N.lor r (N.shiftr r w)).
Proof.
  intros H n. pose proof (H n) as H1. pose proof (H (n + w)) as H2. rewrite N.lor_spec, shiftr_bits. split.
  - intros E. apply orb_true_iff in E. destruct E as [E|E]; [apply H1 in E|apply H2 in E]; revert E;
      intros (i & Hi & B); [exists i; split; [lia|exact B]|].
    exists (w + i). split; [lia|]. now replace (n + (w + i)) with (n + w + i) by lia.
  - intros (i & Hi & B). apply orb_true_iff.
    destruct (N.lt_ge_cases i w) as [L|L]; [left; apply H1; now exists i|right; apply H2].
    exists (i - w). split; [lia|]. now replace (n + w + (i - w)) with (n + i) by lia.
Qed.
Lemma fill1_smear v : smear 32 v (fill1 v).
Proof.
  assert (H : smear 1 v v).
  { intros n. split; [intros B; exists 0; split; [lia|now rewrite N.add_0_r]|].
    intros (i & Hi & B). replace i with 0 in B by lia. now rewrite N.add_0_r in B. }
  unfold fill1. cbv zeta.
  apply smear_step in H. apply smear_step in H. apply smear_step in H. apply smear_step in H.
  now apply smear_step in H.
Qed.
Lemma fill1_ones v : v < 2^32 -> fill1 v = N.ones (N.size v).
Proof.
  intros Hv. apply N.bits_inj; intro n. pose proof (fill1_smear v n) as H.
  destruct (N.lt_ge_cases n (N.size v)) as [L|L].
  - rewrite N.ones_spec_low by exact L. apply H.
    destruct v as [|p]; [cbn in L; lia|].
    assert (Es : N.size (Npos p) = N.succ (N.log2 (Npos p))) by (apply N.size_log2; discriminate).
    assert (Hl : N.log2 (Npos p) < 32) by (apply N.log2_lt_pow2; [reflexivity|exact Hv]).
    exists (N.log2 (Npos p) - n). split; [lia|].
    replace (n + (N.log2 (Npos p) - n)) with (N.log2 (Npos p)) by lia. apply N.bit_log2. discriminate.
  - rewrite N.ones_spec_high by exact L. destruct (N.testbit (fill1 v) n) eqn:E; [exfalso|reflexivity].
    destruct (proj1 H eq_refl) as (i & _ & B).
    assert (B' : N.testbit v (n + i) = false).
    { apply bits_above_lt with (k := N.size v); [apply N.size_gt|lia]. }
    congruence.
Qed.
Lemma xo_bit_mask_eq m mx : 1 <= mx < 2^32 -> xo_bit_mask m mx = N.ones (N.size (mx - 1)).
Proof.
  intros H. assert (E : xo_bit_mask m mx = fill1 (mx - 1)).
  { unfold xo_bit_mask. rewrite (w32_small mx) by (change 4294967296 with (2^32); lia).
    assert (match m with NumPy => sub32 mx 1 | Numba => sub64 mx 1 end = mx - 1) as ->; [|reflexivity].
    change (2^32) with 4294967296 in H.
    destruct m; [unfold sub32, w32|unfold sub64, w64].
    - replace (mx + (4294967296 - 1 mod 4294967296)) with (mx - 1 + 1 * 4294967296)
        by (change (1 mod 4294967296) with 1; lia).
      rewrite N.mod_add, N.mod_small by lia. reflexivity.
    - replace (mx + (18446744073709551616 - 1 mod 18446744073709551616)) with (mx - 1 + 1 * 18446744073709551616)
        by (change (1 mod 18446744073709551616) with 1; lia).
      rewrite N.mod_add, N.mod_small by lia. reflexivity. }
  rewrite E. apply fill1_ones. lia.
Qed.
Theorem xo_bit_mask_least m mx : 1 <= mx < 2^32 ->
  (exists k, xo_bit_mask m mx = 2^k - 1) /\ mx - 1 <= xo_bit_mask m mx /\
  (forall k, mx - 1 <= 2^k - 1 -> xo_bit_mask m mx <= 2^k - 1).
Proof.
  intros H. rewrite xo_bit_mask_eq by exact H. rewrite N.ones_equiv, <- N.sub_1_r.
  set (v := mx - 1). pose proof (N.size_gt v) as G.
  split; [now exists (N.size v)|]. split; [lia|].
  intros k Hk. assert (Hp : 2^k <> 0) by now apply N.pow_nonzero.
  enough (2 ^ N.size v <= 2^k) by lia. apply N.pow_le_mono_r; [discriminate|].
  destruct (N.eq_dec v 0) as [->|Hv]; [cbn; lia|].
  rewrite N.size_log2 by exact Hv. apply N.le_succ_l, N.log2_lt_pow2; lia.
Qed.

(** ** rejection sampling *)
(** Masked draw number i. *)
Definition xo_draw (m : mode) (mx : N) (st : list N) (i : N) : N :=
  N.land (xoroshiro_output (N.iter i xo_step st)) (xo_bit_mask m mx).
Lemma xo_next_out st : xo_words st -> snd (xo_next st) = xoroshiro_output st.
Proof. now intros (a & b & -> & _). Qed.
Lemma xo_reject_run mask mx st i : xo_words st ->
  (forall j, (j < i)%nat -> mx <= N.land (xoroshiro_output (N.iter (N.of_nat j) xo_step st)) mask) ->
  N.land (xoroshiro_output (N.iter (N.of_nat i) xo_step st)) mask < mx ->
  xo_reject i mask mx (xo_step st) (N.land (xoroshiro_output st) mask) =
    Ok (N.iter (N.of_nat (S i)) xo_step st, N.land (xoroshiro_output (N.iter (N.of_nat i) xo_step st)) mask).
Proof.
  revert st. induction i as [|i IH]; intros st H Hj Hi.
  - cbn [N.of_nat N.iter] in Hi |- *. cbn [xo_reject].
    destruct (N.leb_spec mx (N.land (xoroshiro_output st) mask)); [lia|reflexivity].
  - cbn [xo_reject]. pose proof (Hj 0%nat ltac:(lia)) as H0. cbn [N.of_nat N.iter] in H0.
    destruct (N.leb_spec mx (N.land (xoroshiro_output st) mask)); [|lia].
    pose proof (xo_words_step st H) as H'.
    pose proof (xo_next_out (xo_step st) H') as Eo. unfold xo_next in Eo |- *. cbn [snd] in Eo. rewrite Eo.
    assert (Sh : forall j, N.iter (N.of_nat (S j)) xo_step st = N.iter (N.of_nat j) xo_step (xo_step st)).
    { intros j. rewrite Nat2N.inj_succ. apply Niter_succ_r. }
    rewrite (Sh (S i)), (Sh i). rewrite (Sh i) in Hi. apply IH; [exact H'| |exact Hi].
    intros j Hlt. rewrite <- Sh. apply Hj. lia.
Qed.

Lemma xo_zero_draw st : xo_words st -> exists i : nat, xoroshiro_output (N.iter (N.of_nat i) xo_step st) = 0.
Proof.
  intros H. destruct (list_eq_dec N.eq_dec st xo_zero) as [->|H0].
  - exists 0%nat. reflexivity.
  - destruct (xo_full_period st H H0) as (_ & _ & C).
    destruct (C [1; 2^64 - 1]) as (i & _ & E).
    + now exists 1, (2^64 - 1).
    + discriminate.
    + exists (N.to_nat i). rewrite N2Nat.id, E. now vm_compute.
Qed.

Lemma least_nat (P : nat -> Prop) : (forall n, P n \/ ~ P n) -> (exists n, P n) ->
  exists n, P n /\ forall j, (j < n)%nat -> ~ P j.
Proof.
  intros D (n & Hn). revert Hn. induction n as [n IH] using lt_wf_ind. intros Hn.
  assert (B : forall k, (exists j, (j < k)%nat /\ P j) \/ (forall j, (j < k)%nat -> ~ P j)).
  { induction k as [|k [(j & Hj & Pj)|Nk]].
    - right. intros; lia.
    - left. exists j. split; [lia|exact Pj].
    - destruct (D k) as [Pk|Pk]; [left; exists k; split; [lia|exact Pk]|right].
      intros j Hj. destruct (Nat.eq_dec j k) as [->|]; [exact Pk|apply Nk; lia]. }
  destruct (B n) as [(j & Hj & Pj)|Nn]; [exact (IH j Hj Pj)|now exists n].
Qed.

Lemma xo_reject_more f mask mx : forall st r v, xo_reject f mask mx st r = Ok v ->
  forall f', (f <= f')%nat -> xo_reject f' mask mx st r = Ok v.
Proof.
  induction f as [|f IH]; intros st r v E f' Hf; cbn [xo_reject] in E.
  - destruct (mx <=? r) eqn:L; [discriminate|]. destruct f'; cbn [xo_reject]; now rewrite L.
  - destruct f' as [|f']; [lia|]. cbn [xo_reject]. destruct (mx <=? r); [|exact E].
    destruct (xo_next st) as [st' r']. apply IH with (1 := E). lia.
Qed.

Theorem xo_next_rand_ok m st mx : xo_words st -> 1 <= mx < 2^32 ->
  exists i : nat,
    (forall j : nat, (j < i)%nat -> mx <= xo_draw m mx st (N.of_nat j)) /\
    xo_draw m mx st (N.of_nat i) < mx /\
    forall fuel, (i <= fuel)%nat ->
      xo_next_rand fuel m st mx = Ok (N.iter (N.of_nat (S i)) xo_step st, xo_draw m mx st (N.of_nat i)).
Proof.
  intros H Hm.
  destruct (least_nat (fun i => xo_draw m mx st (N.of_nat i) < mx)) as (i & Hi & Hj).
  - intros n. destruct (N.lt_ge_cases (xo_draw m mx st (N.of_nat n)) mx); [now left|right; lia].
  - destruct (xo_zero_draw st H) as (i & E). exists i. unfold xo_draw. rewrite E, N.land_0_l. lia.
  - exists i. assert (Hj' : forall j : nat, (j < i)%nat -> mx <= xo_draw m mx st (N.of_nat j)).
    { intros j L. apply Hj in L. lia. }
    split; [exact Hj'|]. split; [exact Hi|]. intros fuel Hf.
    unfold xo_next_rand. unfold xo_next. pose proof (xo_next_out st H) as Eo. unfold xo_next in Eo.
    cbn [snd] in Eo. cbv zeta. rewrite Eo. apply xo_reject_more with (f := i); [|exact Hf].
    apply xo_reject_run; assumption.
Qed.

Lemma xo_draw_pow2 m st k i : k < 32 -> xo_draw m (2^k) st i < 2^k.
Proof.
  intros Hk. unfold xo_draw. rewrite xo_bit_mask_eq.
  2:{ pose proof (N.pow_nonzero 2 k ltac:(discriminate)). split; [lia|]. apply N.pow_lt_mono_r; [reflexivity|exact Hk]. }
  rewrite N.land_ones. apply N.lt_le_trans with (2 ^ N.size (2^k - 1)).
  - apply N.mod_lt, N.pow_nonzero. discriminate.
  - destruct (N.eq_dec k 0) as [->|]; [cbn; lia|].
    assert (2 <= 2^k) by (change 2 with (2^1) at 1; apply N.pow_le_mono_r; [discriminate|lia]).
    rewrite N.size_log2 by lia. apply N.pow_le_mono_r; [discriminate|].
    apply N.le_succ_l. apply N.log2_lt_pow2; lia.
Qed.

(** ** splitmix *)
Definition sm_mix (z : N) : N :=
  let z := w64 (0xBF58476D1CE4E5B9 * N.lxor z (N.shiftr z 30)) in
  let z := w64 (0x94D049BB133111EB * N.lxor z (N.shiftr z 27)) in
  w64 (N.lxor z (N.shiftr z 31)).
Lemma splitmix_mix seed st : splitmix seed st = sm_mix (w64 (w64 seed + w64 st)).
Proof. reflexivity. Qed.

Lemma xsr_inj k x y : 0 < k -> N.lxor x (N.shiftr x k) = N.lxor y (N.shiftr y k) -> x = y.
Proof.
  intros Hk E.
  assert (Z : forall d, N.lxor d (N.shiftr d k) = 0 -> d = 0).
  { intros d Ed. apply N.lxor_eq in Ed. destruct (N.eq_dec d 0) as [|Hd]; [assumption|exfalso].
    rewrite N.shiftr_div_pow2 in Ed. assert (d / 2^k < d); [|lia].
    apply N.div_lt; [lia|]. apply N.pow_gt_1; [reflexivity|lia]. }
  apply N.lxor_eq, Z. rewrite N.shiftr_lxor, xor4, E. apply N.lxor_nilpotent.
Qed.
Lemma odd_mul_inj c ci x y : w64 (ci * c) = 1 -> x < 2^64 -> y < 2^64 ->
  w64 (c * x) = w64 (c * y) -> x = y.
Proof.
  intros Hc Hx Hy E. unfold w64 in *. change 18446744073709551616 with (2^64) in *.
  assert (I : forall v, v < 2^64 -> (ci * ((c * v) mod 2^64)) mod 2^64 = v).
  { intros v Hv. rewrite N.mul_mod_idemp_r by discriminate. rewrite N.mul_assoc.
    rewrite <- N.mul_mod_idemp_l, Hc, N.mul_1_l by discriminate. now apply N.mod_small. }
  rewrite <- (I x Hx), <- (I y Hy). now rewrite E.
Qed.
Lemma xsr_lt64 k x : x < 2^64 -> N.lxor x (N.shiftr x k) < 2^64.
Proof. intros. apply lxor64; [assumption|now apply shiftr_lt]. Qed.
Lemma sm_mix_inj x y : x < 2^64 -> y < 2^64 -> sm_mix x = sm_mix y -> x = y.
Proof.
  intros Hx Hy E. unfold sm_mix in E. cbv zeta in E.
  assert (W : forall z, w64 z < 2^64) by apply w64_lt.
  assert (W31 : forall z, w64 (N.lxor (w64 z) (N.shiftr (w64 z) 31)) = N.lxor (w64 z) (N.shiftr (w64 z) 31)).
  { intros z. apply w64_small. apply (xsr_lt64 31), W. }
  rewrite !W31 in E.
  apply xsr_inj in E; [|reflexivity].
  apply (odd_mul_inj _ 0x319642b2d24d8ec3) in E; [|now vm_compute|apply xsr_lt64, W|apply xsr_lt64, W].
  apply xsr_inj in E; [|reflexivity].
  apply (odd_mul_inj _ 0x96de1b173f119089) in E; [|now vm_compute|now apply xsr_lt64|now apply xsr_lt64].
  now apply xsr_inj in E.
Qed.

Lemma splitmix_ref seed n : n = 1 \/ n = 2 -> seed < 2^64 ->
  splitmix seed (n * 0x9E3779B97F4A7C15) = splitmix64 seed n.
Proof.
  intros Hn Hs. rewrite splitmix_mix. unfold splitmix64, sm_mix. cbv zeta.
  rewrite !N.shiftr_div_pow2, (w64_small seed) by exact Hs.
  assert (E : w64 (seed + w64 (n * 0x9E3779B97F4A7C15)) = (seed + n * 0x9E3779B97F4A7C15) mod 2^64).
  { unfold w64. now rewrite N.add_mod_idemp_r by discriminate. }
  rewrite E. set (z := (seed + n * 0x9E3779B97F4A7C15) mod 2^64). clearbody z.
  rewrite (N.mul_comm 0xBF58476D1CE4E5B9). change (w64 (?x * 0xBF58476D1CE4E5B9)) with ((x * 0xBF58476D1CE4E5B9) mod 2^64).
  set (z1 := (_ * 0xBF58476D1CE4E5B9) mod 2^64). clearbody z1.
  rewrite (N.mul_comm 0x94D049BB133111EB). change (w64 (?x * 0x94D049BB133111EB)) with ((x * 0x94D049BB133111EB) mod 2^64).
  set (z2 := (_ * 0x94D049BB133111EB) mod 2^64).
  assert (z2 < 2^64) by (apply N.mod_lt; discriminate).
  apply w64_small. rewrite <- N.shiftr_div_pow2. now apply xsr_lt64.
Qed.

Lemma sm_new_eq junk seed : length junk = 2%nat ->
  sm_new junk seed = [splitmix (w64 seed) 0x9E3779B97F4A7C15; splitmix (w64 seed) 0x3C6EF372FE94F82A].
Proof. intros Hl. destruct junk as [|a [|b [|? ?]]]; try discriminate. reflexivity. Qed.

Theorem sm_seed_ref junk seed : length junk = 2%nat -> seed < 2^64 ->
  sm_new junk seed = [splitmix64 seed 1; splitmix64 seed 2] /\ xo_words (sm_new junk seed) /\
  sm_new junk seed <> xo_zero.
Proof.
  intros Hl Hs. rewrite sm_new_eq, w64_small by assumption.
  assert (E1 : splitmix seed 0x9E3779B97F4A7C15 = splitmix64 seed 1).
  { rewrite <- (splitmix_ref seed 1) by auto. reflexivity. }
  assert (E2 : splitmix seed 0x3C6EF372FE94F82A = splitmix64 seed 2).
  { rewrite <- (splitmix_ref seed 2) by auto. unfold splitmix at 2.
    change (w64 (2 * 0x9E3779B97F4A7C15)) with (w64 0x3C6EF372FE94F82A). reflexivity. }
  split; [now rewrite E1, E2|]. split.
  - eexists _, _. split; [reflexivity|]. split; apply w64_lt.
  - intros E. injection E as A B. rewrite splitmix_mix in A, B.
    assert (W : forall z, w64 z < 2^64) by apply w64_lt.
    change 0 with (sm_mix 0) in A, B.
    apply sm_mix_inj in A; [|apply W|reflexivity]. apply sm_mix_inj in B; [|apply W|reflexivity].
    rewrite (w64_small seed) in A, B by exact Hs.
    change (w64 0x9E3779B97F4A7C15) with 0x9E3779B97F4A7C15 in A.
    change (w64 0x3C6EF372FE94F82A) with 0x3C6EF372FE94F82A in B.
    unfold w64 in A, B. change (2^64) with 18446744073709551616 in Hs. clear - A B Hs.
    assert (D : exists p q, seed + 0x9E3779B97F4A7C15 = 18446744073709551616 * p /\
                            seed + 0x3C6EF372FE94F82A = 18446744073709551616 * q).
    { exists ((seed + 0x9E3779B97F4A7C15) / 18446744073709551616), ((seed + 0x3C6EF372FE94F82A) / 18446744073709551616).
      split; [rewrite (N.div_mod (seed + 0x9E3779B97F4A7C15) 18446744073709551616) at 1 by discriminate
             |rewrite (N.div_mod (seed + 0x3C6EF372FE94F82A) 18446744073709551616) at 1 by discriminate];
        rewrite ?A, ?B; apply N.add_0_r. }
    destruct D as (p & q & Ep & Eq). lia.
Qed.

Theorem sm_seed_inj junk junk' seed seed' : length junk = 2%nat -> length junk' = 2%nat ->
  seed < 2^64 -> seed' < 2^64 ->
  aget (sm_new junk seed) 0 = aget (sm_new junk' seed') 0 -> seed = seed'.
Proof.
  intros Hl Hl' Hs Hs'. rewrite !sm_new_eq, !w64_small by assumption. cbn [aget nth].
  rewrite !splitmix_mix. intros E. apply sm_mix_inj in E; [|apply w64_lt..].
  rewrite !w64_small with (x := seed), !w64_small with (x := seed') in E by assumption.
  change (w64 0x9E3779B97F4A7C15) with 0x9E3779B97F4A7C15 in E.
  unfold w64 in E. change (2^64) with 18446744073709551616 in *.
  rewrite (N.add_comm seed), (N.add_comm seed') in E.
  assert (F : forall s, s < 18446744073709551616 ->
     ((0x61C8864680B583EB + (0x9E3779B97F4A7C15 + s) mod 18446744073709551616) mod 18446744073709551616 = s)).
  { intros s H. rewrite N.add_mod_idemp_r by discriminate.
    replace (0x61C8864680B583EB + (0x9E3779B97F4A7C15 + s)) with (s + 1 * 18446744073709551616) by lia.
    rewrite N.mod_add by discriminate. now apply N.mod_small. }
  rewrite <- (F seed Hs), <- (F seed' Hs'). now rewrite E.
Qed.
