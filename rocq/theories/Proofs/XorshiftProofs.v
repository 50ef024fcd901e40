From Coq Require Import NArith ZArith List Bool Lia Btauto.
From Coq Require Import ZifyBool ZifyNat ZifyN.
From Verif Require Import Base.Word Base.WordLemmas Model.Xorshift Spec.XorshiftSpec.
From Verif Require Import Proofs.GF2 Proofs.Orbit Proofs.GF2Period Proofs.TinyProofs.
Import ListNotations.
Open Scope N_scope.
Ltac Zify.zify_post_hook ::= idtac.

Lemma xs_word_lt x w : x < 2^32 -> w < 2^32 -> xs_word x w < 2^32.
Proof.
  intros Hx Hw. unfold xs_word. cbv zeta. rewrite <- !N.shiftr_div_pow2.
  assert (x * 2^11 mod 2^32 < 2^32) by (apply N.mod_lt; discriminate).
  repeat first [assumption|apply (lxor_lt _ _ 32)|apply shiftr_lt].
Qed.

Lemma xs_next_ref m x y z w : x < 2^32 -> y < 2^32 -> z < 2^32 -> w < 2^32 ->
  xs_next m [x; y; z; w] = ([y; z; w; xs_word x w], xs_word x w).
Proof.
  intros Hx Hy Hz Hw. unfold xs_next. cbv zeta. cbn [aget aset nth].
  rewrite (w32_small x), (w32_small w), (w32_small x), (w32_small w) by assumption.
  match goal with |- ([_; _; _; w32 ?t], _) = _ => assert (E : w32 t = xs_word x w) end; [|now rewrite E].
  assert (F : w32 (N.lxor x (match m with NumPy => shl32 x 11 | Numba => shl64 x 11 end)) =
              N.lxor x (x * 2^11 mod 2^32)).
  { rewrite w32_lxor, (w32_small x) by assumption. f_equal.
    destruct m; [unfold shl32; rewrite w32_w32|rewrite w32_shl64, (w32_small x) by assumption; unfold shl32];
      unfold w32; now rewrite N.shiftl_mul_pow2. }
  rewrite w32_lxor, w32_lxor, F.
  assert (L : N.lxor x (x * 2^11 mod 2^32) < 2^32).
  { apply (lxor_lt _ _ 32); [assumption|apply N.mod_lt; discriminate]. }
  unfold xs_word. cbv zeta. rewrite <- !N.shiftr_div_pow2.
  rewrite (w32_small (N.shiftr _ 8)) by (apply shiftr_lt32; exact L).
  rewrite (w32_small (N.lxor w _)); [reflexivity|]. apply lxor_lt32; [assumption|now apply shiftr_lt32].
Qed.

Lemma xs_words_next m st : xs_words st -> xs_words (fst (xs_next m st)).
Proof.
  intros (x & y & z & w & -> & Hx & Hy & Hz & Hw). rewrite xs_next_ref by assumption. cbn [fst].
  exists y, z, w, (xs_word x w). repeat (split; [assumption || reflexivity|]). now apply xs_word_lt.
Qed.
Lemma xs_modes st : xs_words st -> xs_next NumPy st = xs_next Numba st.
Proof. intros (x & y & z & w & -> & Hx & Hy & Hz & Hw). now rewrite !xs_next_ref. Qed.

Lemma xs_words_advance m st n : xs_words st -> xs_words (xs_advance m st n).
Proof. intros H. unfold xs_advance. apply Niter_inv; [|exact H]. apply xs_words_next. Qed.

(** ** previous after next *)
Lemma xs_previous_next m st : xs_words st ->
  xs_previous m (fst (xs_next m st)) = (st, snd (xs_next m st)).
Proof.
  intros (x & y & z & w & -> & Hx & Hy & Hz & Hw). rewrite xs_next_ref by assumption. cbn [fst snd].
  unfold xs_previous. cbv zeta. cbn [aget aset nth].
  match goal with |- ([w32 ?t; _; _; _], _) = _ => assert (E : w32 t = x) end; [|now rewrite E].
  rewrite (w32_small w) by assumption.
  set (u := N.lxor x (shl32 x 11)).
  assert (Hu : u < 2^32) by (apply (lxor_lt _ _ 32); [assumption|apply w32_lt]).
  assert (E0 : N.lxor (xs_word x w) (N.lxor w (N.shiftr w 19)) = N.lxor u (N.shiftr u 8)).
  { unfold xs_word. cbv zeta. rewrite <- shl32_mul. fold u. rewrite <- !N.shiftr_div_pow2.
    rewrite N.lxor_assoc, N.lxor_nilpotent. apply N.lxor_0_r. }
  rewrite E0. clear E0.
  rewrite (w32_small (N.lxor u (N.shiftr u 8))) by (apply (lxor_lt _ _ 32); [assumption|now apply shiftr_lt]).
  rewrite (xsr_twice 8). change (2 * 8) with 16.
  rewrite (w32_small (N.lxor u (N.shiftr u 16))) by (apply (lxor_lt _ _ 32); [assumption|now apply shiftr_lt]).
  rewrite (xsr_twice 16). change (2 * 16) with 32.
  assert (Eu : N.shiftr u 32 = 0) by (rewrite N.shiftr_div_pow2; now apply N.div_small).
  rewrite Eu, N.lxor_0_r, (w32_small u) by assumption. clear Eu.
  set (s11 := match m with NumPy => shl32 u 11 | Numba => shl64 u 11 end).
  assert (E1 : w32 (N.lxor u s11) = N.lxor x (shl32 x 22)).
  { rewrite w32_lxor, (w32_small u) by assumption.
    assert (w32 s11 = shl32 u 11) as ->.
    { unfold s11. destruct m; [unfold shl32; apply w32_w32|now rewrite w32_shl64, (w32_small u)]. }
    unfold u. apply (xsl_twice 11). }
  assert (E2 : w32 (match m with NumPy => shl32 (N.lxor x (shl32 x 22)) 22 | Numba => shl64 (N.lxor x (shl32 x 22)) 22 end)
               = shl32 (N.lxor x (shl32 x 22)) 22).
  { assert (L : N.lxor x (shl32 x 22) < 2^32) by (apply (lxor_lt _ _ 32); [assumption|apply w32_lt]).
    destruct m; [unfold shl32 at 1; apply w32_w32|now rewrite w32_shl64, w32_small]. }
  rewrite w32_lxor, E1, E2, (xsl_twice 22). change (2 * 22) with 44.
  assert (Ez : shl32 x 44 = 0).
  { unfold shl32. apply N.bits_inj; intro n. rewrite w32_bits, shiftl_bits, N.bits_0.
    destruct (N.ltb_spec n 32), (N.leb_spec 44 n); try lia; reflexivity. }
  now rewrite Ez, N.lxor_0_r.
Qed.

(** ** the packed state *)
Definition xpack (x y z w : N) : N := x + 2^32 * (y + 2^32 * (z + 2^32 * w)).
Definition xg (a : N) : N := N.lxor a ((N.shiftl a 11) mod 2^32).
Definition xr (k a : N) : N := N.lxor a (N.shiftr a k).
Definition xT (x : N) : N :=
  N.lxor (N.shiftr x 32) (N.shiftl (N.lxor (xr 8 (xg (x mod 2^32))) (xr 19 (N.shiftr x 96))) 96).

Lemma xT_linear : linear xT.
Proof.
  assert (Lg : linear xg).
  { apply (linear_lxor (fun a => a)); [apply linear_id|].
    apply (linear_comp (fun a => a mod 2^32) (fun a => N.shiftl a 11)); [apply linear_mod_pow2|apply linear_shiftl]. }
  assert (Lr : forall k, linear (xr k)).
  { intros k. apply (linear_lxor (fun a => a)); [apply linear_id|apply linear_shiftr]. }
  apply (linear_lxor (fun x => N.shiftr x 32)); [apply linear_shiftr|].
  apply (linear_comp (fun a => N.shiftl a 96)); [apply linear_shiftl|].
  apply (linear_lxor (fun x => xr 8 (xg (x mod 2^32)))).
  - apply (linear_comp (xr 8)); [apply Lr|]. apply (linear_comp xg); [apply Lg|apply linear_mod_pow2].
  - apply (linear_comp (xr 19)); [apply Lr|apply linear_shiftr].
Qed.

Lemma lxor_shiftl_add x k y : y < 2^k -> N.lxor y (N.shiftl x k) = y + 2^k * x.
Proof.
  intros H. rewrite <- N.add_nocarry_lxor; [rewrite N.shiftl_mul_pow2; lia|].
  apply N.bits_inj; intro n. rewrite N.land_spec, shiftl_bits, N.bits_0.
  destruct (N.leb_spec k n); [rewrite (bits_above_lt y k n) by assumption; reflexivity|now rewrite andb_comm].
Qed.
Lemma mod_lo k a b : a < 2^k -> (a + 2^k * b) mod 2^k = a.
Proof. intros H. rewrite N.mul_comm, N.mod_add by (apply N.pow_nonzero; discriminate). now apply N.mod_small. Qed.
Lemma shr_hi k a b : a < 2^k -> N.shiftr (a + 2^k * b) k = b.
Proof.
  intros H. rewrite N.shiftr_div_pow2, N.mul_comm, N.div_add by (apply N.pow_nonzero; discriminate).
  now rewrite N.div_small.
Qed.
Lemma lo_hi_lt k l a b : a < 2^k -> b < 2^l -> a + 2^k * b < 2^(k + l).
Proof. intros Ha Hb. rewrite N.pow_add_r. nia. Qed.

Lemma xT_pack x y z w : x < 2^32 -> y < 2^32 -> z < 2^32 -> w < 2^32 ->
  xT (xpack x y z w) = xpack y z w (xs_word x w).
Proof.
  intros Hx Hy Hz Hw. unfold xT, xpack.
  rewrite (mod_lo 32 x), (shr_hi 32 x) by assumption.
  replace 96 with (32 + (32 + 32)) at 1 by reflexivity.
  rewrite <- !N.shiftr_shiftr, (shr_hi 32 x), (shr_hi 32 y), (shr_hi 32 z) by assumption.
  rewrite lxor_shiftl_add.
  - unfold xr, xg. rewrite N.shiftl_mul_pow2. unfold xs_word. cbv zeta.
    rewrite !N.shiftr_div_pow2. change (2^96) with (2^32 * (2^32 * 2^32)). lia.
  - change 96 with (32 + (32 + 32)). apply lo_hi_lt; [assumption|]. now apply lo_hi_lt.
Qed.

Lemma xpack_lt x y z w : x < 2^32 -> y < 2^32 -> z < 2^32 -> w < 2^32 -> xpack x y z w < 2^128.
Proof.
  intros. unfold xpack. change 128 with (32 + (32 + (32 + 32))).
  repeat (apply lo_hi_lt; [assumption|]). assumption.
Qed.
Lemma pair_inj k a b a' b' : a < 2^k -> a' < 2^k -> a + 2^k * b = a' + 2^k * b' -> a = a' /\ b = b'.
Proof.
  intros Ha Ha' E. split.
  - rewrite <- (mod_lo k a b Ha), <- (mod_lo k a' b' Ha'). now rewrite E.
  - rewrite <- (shr_hi k a b Ha), <- (shr_hi k a' b' Ha'). now rewrite E.
Qed.
Lemma xpack_inj x y z w x' y' z' w' : x < 2^32 -> y < 2^32 -> z < 2^32 ->
  x' < 2^32 -> y' < 2^32 -> z' < 2^32 ->
  xpack x y z w = xpack x' y' z' w' -> [x; y; z; w] = [x'; y'; z'; w'].
Proof.
  intros Hx Hy Hz Hx' Hy' Hz' E. unfold xpack in E.
  apply pair_inj in E; [|assumption..]. destruct E as [-> E].
  apply pair_inj in E; [|assumption..]. destruct E as [-> E].
  apply pair_inj in E; [|assumption..]. now destruct E as [-> ->].
Qed.

Definition lpack (st : list N) : N := xpack (aget st 0) (aget st 1) (aget st 2) (aget st 3).
Lemma lpack_lt st : xs_words st -> lpack st < 2^128.
Proof. intros (x & y & z & w & -> & H). now apply xpack_lt. Qed.
Lemma lpack_inj st st' : xs_words st -> xs_words st' -> lpack st = lpack st' -> st = st'.
Proof.
  intros (x & y & z & w & -> & Hx & Hy & Hz & Hw) (x' & y' & z' & w' & -> & Hx' & Hy' & Hz' & Hw').
  now apply xpack_inj.
Qed.
Lemma lpack_next m st : xs_words st -> lpack (fst (xs_next m st)) = xT (lpack st).
Proof.
  intros (x & y & z & w & -> & Hx & Hy & Hz & Hw). rewrite xs_next_ref by assumption.
  symmetry. now apply xT_pack.
Qed.
Lemma lpack_advance m st n : xs_words st -> lpack (xs_advance m st n) = N.iter n xT (lpack st).
Proof.
  intros H. unfold xs_advance. induction n as [|n IH] using N.peano_ind; [reflexivity|].
  rewrite !Niter_succ, <- IH. apply lpack_next. now apply (xs_words_advance m st n).
Qed.

Definition xP : N := 0x1000000010046d8b3f985d65ffd3c8001.

Lemma xT_bound x : x < 2^128 -> xT x < 2^128.
Proof.
  intros H. unfold xT, xr, xg. apply (lxor_lt _ _ 128); [now apply shiftr_lt|].
  rewrite N.shiftl_mul_pow2. change (2^128) with (2^32 * 2^96). apply N.mul_lt_mono_pos_r; [reflexivity|].
  assert (x mod 2^32 < 2^32) by (apply N.mod_lt; discriminate).
  assert (N.shiftl (x mod 2^32) 11 mod 2^32 < 2^32) by (apply N.mod_lt; discriminate).
  assert (N.shiftr x 96 < 2^32).
  { rewrite N.shiftr_div_pow2. apply N.div_lt_upper_bound; [discriminate|]. exact H. }
  repeat first [assumption|apply (lxor_lt _ _ 32)|apply shiftr_lt].
Qed.

(** [xT] with masks instead of divisions, which evaluates faster. *)
Definition xT_mask (x : N) : N :=
  let lo := N.land x 4294967295 in
  let g := N.lxor lo (N.land (N.shiftl lo 11) 4294967295) in
  let h := N.shiftr x 96 in
  N.lxor (N.shiftr x 32) (N.shiftl (N.lxor (N.lxor g (N.shiftr g 8)) (N.lxor h (N.shiftr h 19))) 96).
Lemma xT_mask_ok x : xT x = xT_mask x.
Proof.
  unfold xT, xT_mask, xr, xg. cbv zeta. change 4294967295 with (N.ones 32).
  now rewrite !N.land_ones.
Qed.
Definition xInv : list (N * N) := Eval vm_compute in inverses xP 128 M128 ps128.

Lemma xT_annih : forallb (fun c => c =? 0) (mat 128 (ev xT xP)) = true.
Proof. unfold mat. rewrite (map_ext _ _ (ev_ext _ _ xT_mask_ok xP)). now vm_compute. Qed.
Lemma xT_period x : x < 2^128 -> x <> 0 ->
  N.iter (Npos M128) xT x = x /\ (forall d, N.iter d xT x = x -> N.divide (Npos M128) d) /\
  (forall y, y < 2^128 -> y <> 0 -> exists i, i < Npos M128 /\ N.iter i xT x = y).
Proof.
  apply (full_period xT xP 128 xT_linear 128 eq_refl M128) with (ps := ps128) (inv := lookup xInv).
  - now vm_compute.
  - exact xT_bound.
  - exact xT_annih.
  - now vm_compute.
  - exact ps128_prime.
  - exact ps128_fac.
  - now vm_compute.
Qed.

Lemma xs_unpack v : v < 2^128 -> exists st, xs_words st /\ lpack st = v.
Proof.
  intros H.
  set (x := v mod 2^32). set (v1 := v / 2^32). set (y := v1 mod 2^32). set (v2 := v1 / 2^32).
  set (z := v2 mod 2^32). set (w := v2 / 2^32).
  assert (E2 : v2 = z + 2^32 * w) by (unfold z, w; rewrite (N.div_mod v2 (2^32)) at 1 by discriminate; lia).
  assert (E1 : v1 = y + 2^32 * v2) by (unfold y, v2; rewrite (N.div_mod v1 (2^32)) at 1 by discriminate; lia).
  assert (E0 : v = x + 2^32 * v1) by (unfold x, v1; rewrite (N.div_mod v (2^32)) at 1 by discriminate; lia).
  exists [x; y; z; w]. split.
  - exists x, y, z, w. split; [reflexivity|]. repeat (split; [apply N.mod_lt; discriminate|]).
    unfold w, v2, v1. rewrite !N.div_div by discriminate.
    apply N.div_lt_upper_bound; [discriminate|]. exact H.
  - unfold lpack, xpack. cbn [aget nth]. now rewrite <- E2, <- E1, <- E0.
Qed.

Lemma lpack_zero st : xs_words st -> lpack st = 0 -> st = xs_zero.
Proof.
  intros H E. apply lpack_inj; [exact H| |now rewrite E].
  exists 0, 0, 0, 0. now repeat split.
Qed.

Theorem xs_full_period m st : xs_words st -> st <> xs_zero ->
  xs_advance m st (2^128 - 1) = st /\
  (forall d, xs_advance m st d = st -> N.divide (2^128 - 1) d) /\
  (forall st', xs_words st' -> st' <> xs_zero -> exists i, i < 2^128 - 1 /\ xs_advance m st i = st').
Proof.
  intros H H0. assert (P0 : lpack st <> 0) by (intros E; apply H0; now apply lpack_zero).
  destruct (xT_period (lpack st) (lpack_lt st H) P0) as (A & B & C).
  replace (2^128 - 1) with (Npos M128) by reflexivity.
  split; [|split].
  - apply lpack_inj; [apply xs_words_advance; exact H|exact H|]. rewrite lpack_advance by exact H. exact A.
  - intros d E. apply B. rewrite <- (lpack_advance m) by exact H. rewrite E. reflexivity.
  - intros st' H' H0'. destruct (C (lpack st') (lpack_lt st' H')) as (i & Hi & E).
    + intros E. apply H0'. apply lpack_zero; assumption.
    + exists i. split; [exact Hi|]. apply lpack_inj; [apply xs_words_advance; exact H|exact H'|].
      rewrite lpack_advance by exact H. exact E.
Qed.

(** ** next after previous *)
Lemma xs_zero_words : xs_words xs_zero.
Proof. exists 0, 0, 0, 0. now repeat split. Qed.
Lemma xs_pred_gen m st M : xs_words st -> 0 < M -> xs_advance m st M = st ->
  exists st', xs_words st' /\ fst (xs_next m st') = st.
Proof.
  intros H HM A. exists (xs_advance m st (N.pred M)). split; [now apply xs_words_advance|].
  rewrite <- A at 2. rewrite <- (N.succ_pred M) at 2 by lia. unfold xs_advance. now rewrite Niter_succ.
Qed.
Lemma xs_pred m st : xs_words st -> exists st', xs_words st' /\ fst (xs_next m st') = st.
Proof.
  intros H. destruct (list_eq_dec N.eq_dec st xs_zero) as [->|H0].
  - exists xs_zero. split; [exact xs_zero_words|]. destruct m; now vm_compute.
  - destruct (xs_full_period m st H H0) as (A & _).
    revert A. apply (xs_pred_gen m st (2^128 - 1) H). reflexivity.
Qed.
Lemma xs_next_out m st : xs_words st -> snd (xs_next m st) = aget (fst (xs_next m st)) 3.
Proof. intros (x & y & z & w & -> & Hx & Hy & Hz & Hw). now rewrite xs_next_ref. Qed.
Lemma xs_next_previous m st : xs_words st ->
  xs_words (fst (xs_previous m st)) /\ xs_next m (fst (xs_previous m st)) = (st, snd (xs_previous m st)).
Proof.
  intros H. destruct (xs_pred m st H) as (st' & H' & <-).
  rewrite xs_previous_next by exact H'. cbn [fst snd]. split; [exact H'|].
  destruct (xs_next m st'); reflexivity.
Qed.

(** ** sequence *)
Lemma xs_seq_shift n : forall a b c d,
  xs_seq a b c d (4 + n) = xs_seq b c d (xs_word a d) (3 + n).
Proof. reflexivity. Qed.
Lemma xs_outputs m n : forall a b c d, a < 2^32 -> b < 2^32 -> c < 2^32 -> d < 2^32 ->
  snd (xs_next m (xs_advance m [a; b; c; d] (N.of_nat n))) = xs_seq a b c d (n + 4).
Proof.
  induction n as [|n IH]; intros a b c d Ha Hb Hc Hd.
  - cbn [N.of_nat xs_advance N.iter]. now rewrite xs_next_ref.
  - rewrite Nat2N.inj_succ. unfold xs_advance. rewrite Niter_succ_r, xs_next_ref by assumption.
    cbn [fst]. fold (xs_advance m [b; c; d; xs_word a d] (N.of_nat n)).
    rewrite IH by (try assumption; now apply xs_word_lt). reflexivity.
Qed.
