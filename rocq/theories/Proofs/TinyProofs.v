(** TinyMT: the model follows tinymt32. *)
From Coq Require Import NArith ZArith List Bool Lia Btauto.
From Coq Require Import ZifyBool ZifyNat ZifyN.
From Verif Require Import Base.Word Base.WordLemmas Model.TinyMT Spec.TinySpec Proofs.GF2.
Import ListNotations.
Open Scope N_scope.
Ltac Zify.zify_post_hook ::= Z.div_mod_to_equations.

Local Notation M32 := 4294967296.

Lemma w32_lxor a b : w32 (N.lxor a b) = N.lxor (w32 a) (w32 b).
Proof. exact (linear_mod_pow2 32 a b). Qed.
Lemma w32_shl64 x k : w32 (shl64 x k) = shl32 (w32 x) k.
Proof.
  unfold shl32, shl64. apply N.bits_inj; intro n. rewrite !w32_bits, w64_bits, !shiftl_bits, w32_bits.
  destruct (N.ltb_spec n 32), (N.ltb_spec n 64), (N.leb_spec k n), (N.ltb_spec (n - k) 32); try lia; reflexivity.
Qed.
Lemma lsb_mul y c : N.land y 1 * c = if N.odd y then c else 0.
Proof.
  change 1 with (N.ones 1) at 1. rewrite N.land_ones. change (2^1) with 2.
  rewrite <- N.bit0_mod, N.bit0_odd. destruct (N.odd y); cbn [N.b2n]; lia.
Qed.
Lemma odd_w32 y : N.odd (w32 y) = N.odd y.
Proof. rewrite <- !N.bit0_odd. rewrite w32_bits. reflexivity. Qed.
Lemma land_mask31 x : N.land x 0x7FFFFFFF = x mod 2^31.
Proof. exact (N.land_ones x 31). Qed.
Lemma shl32_mul x k : shl32 x k = x * 2^k mod 2^32.
Proof. unfold shl32, w32. now rewrite N.shiftl_mul_pow2. Qed.
Lemma mod31_lt x : x mod 2^31 < M32.
Proof. change (2^31) with 2147483648. lia. Qed.

Lemma next_words s : tiny_words s -> tiny_words (tinymt32_next s).
Proof.
  destruct s as [[[s0 s1] s2] s3]. intros (H0 & H1 & H2 & H3).
  unfold tinymt32_next. cbv zeta.
  set (x := N.lxor (s0 mod 2 ^ 31) (N.lxor s1 s2)).
  assert (Hx : x < 2^32) by (repeat apply (lxor_lt _ _ 32); try assumption; apply mod31_lt).
  assert (Hx' : N.lxor x (x * 2 mod 2^32) < 2^32)
    by (apply (lxor_lt _ _ 32); [assumption|apply N.mod_lt; discriminate]).
  set (x' := N.lxor x (x * 2 mod 2^32)) in *. clearbody x'. clear x Hx.
  assert (Hy : N.lxor s3 (N.lxor (s3 / 2) x') < 2^32).
  { repeat apply (lxor_lt _ _ 32); try assumption. change (2^32) with M32 in *. lia. }
  set (y := N.lxor s3 (N.lxor (s3 / 2) x')) in *. clearbody y.
  repeat split; try assumption.
  - apply (lxor_lt _ _ 32); [assumption|]. now destruct (N.odd y).
  - repeat apply (lxor_lt _ _ 32); try assumption; [apply N.mod_lt; discriminate|now destruct (N.odd y)].
Qed.

Lemma list4_eq (a b c d a' b' c' d' : N) : a = a' -> b = b' -> c = c' -> d = d' -> [a; b; c; d] = [a'; b'; c'; d'].
Proof. now intros -> -> -> ->. Qed.

Lemma quad_eq (a b c d a' b' c' d' : N) : a = a' -> b = b' -> c = c' -> d = d' -> (a, b, c, d) = (a', b', c', d').
Proof. now intros -> -> -> ->. Qed.

Lemma shuffle_ref m s : tiny_words s -> tiny_shuffle m (tiny_arr s) = tiny_arr (tinymt32_next s).
Proof.
  intros Hw. pose proof (next_words s Hw) as Hn.
  destruct s as [[[s0 s1] s2] s3]. destruct Hw as (H0 & H1 & H2 & H3).
  unfold tiny_shuffle, tiny_arr. cbv beta zeta. cbn [aget aset nth]. unfold tinymt32_next in *. cbv zeta in *.
  change (2^32) with M32 in H0, H1, H2, H3.
  rewrite land_mask31, (N.lxor_assoc (s0 mod 2^31) s1 s2).
  set (x := N.lxor (s0 mod 2 ^ 31) (N.lxor s1 s2)) in *.
  assert (Hx : x < M32) by (repeat apply lxor_lt32; try assumption; apply mod31_lt).
  clearbody x.
  set (xm := N.lxor x (match m with NumPy => shl32 x 1 | Numba => shl64 x 1 end)).
  set (xr := N.lxor x (x * 2 mod 2^32)) in *.
  assert (Ex : w32 xm = xr).
  { unfold xm, xr. rewrite w32_lxor, w32_small by assumption. f_equal. destruct m.
    - unfold shl32. rewrite w32_w32. apply shl32_mul.
    - rewrite w32_shl64, w32_small by assumption. apply shl32_mul. }
  assert (Exm : m = NumPy -> xm = xr).
  { intros ->. unfold xm, xr. f_equal. apply shl32_mul. }
  clearbody xm.
  assert (Hxr : xr < M32) by (rewrite <- Ex; apply w32_lt). clearbody xr.
  rewrite N.shiftr_div_pow2. change (2^1) with 2.
  set (ym := N.lxor s3 (N.lxor (s3 / 2) xm)).
  set (yr := N.lxor s3 (N.lxor (s3 / 2) xr)) in *.
  assert (Ey : w32 ym = yr).
  { unfold ym, yr. rewrite !w32_lxor, Ex, (w32_small s3) by assumption. rewrite w32_small by lia. reflexivity. }
  assert (Eym : m = NumPy -> ym = yr) by (intros E; unfold ym, yr; now rewrite (Exm E)).
  clearbody ym yr.
  rewrite !lsb_mul. rewrite <- (odd_w32 ym), Ey.
  destruct Hn as (_ & N1 & N2 & N3).
  apply list4_eq; [reflexivity| | | ].
  - apply w32_small. exact N1.
  - rewrite !w32_lxor, Ex. rewrite (w32_small (if N.odd yr then _ else 0)) by now destruct (N.odd yr).
    unfold MAT2. do 2 f_equal. destruct m.
    + rewrite (Eym eq_refl). unfold shl32. rewrite w32_w32. apply shl32_mul.
    + rewrite w32_shl64, Ey. apply shl32_mul.
  - reflexivity.
Qed.

Lemma iter_ref m s n : tiny_words s ->
  N.iter n (tiny_shuffle m) (tiny_arr s) = tiny_arr (N.iter n tinymt32_next s) /\
  tiny_words (N.iter n tinymt32_next s).
Proof.
  intros H. induction n as [|n [IH1 IH2]] using N.peano_ind; [now split|].
  rewrite !N.iter_succ, IH1, shuffle_ref by assumption. split; [reflexivity|now apply next_words].
Qed.

(** ** temper *)
Lemma temper_ref_numpy s : tiny_words s -> tiny_temper NumPy (tiny_arr s) = tinymt32_temper s.
Proof.
  destruct s as [[[s0 s1] s2] s3]. intros _. unfold tiny_temper, tinymt32_temper, tiny_arr.
  cbn [aget nth]. rewrite lsb_mul, N.shiftr_div_pow2. reflexivity.
Qed.
Lemma temper_ref_lt s : tiny_words s -> tinymt32_temper s < M32.
Proof.
  destruct s as [[[s0 s1] s2] s3]. intros (H0 & H1 & H2 & H3). unfold tinymt32_temper. cbv zeta.
  repeat apply lxor_lt32; try assumption; [apply N.mod_lt; discriminate|]. now destruct (N.odd _).
Qed.

(** Under numba the carry of the sum stays in bit 32. *)
Definition tiny_carry (s : tstate) : N :=
  let '(s0, s1, s2, s3) := s in (s0 + s2 / 2^8) / 2^32.

Lemma lxor_bit32 a b : a < M32 -> b < 2 * M32 -> N.lxor a b = N.lxor a (b mod M32) + M32 * (b / M32).
Proof.
  intros Ha Hb.
  assert (L : N.lxor a (b mod M32) < 2^32) by (apply (lxor_lt _ _ 32); [assumption|apply N.mod_lt; discriminate]).
  replace (N.lxor a (b mod M32) + M32 * (b / M32)) with (N.lor (N.shiftl (b / M32) 32) (N.lxor a (b mod M32))).
  2: { rewrite lor_shiftl_add by exact L. change (2^32) with M32. lia. }
  apply N.bits_inj; intro n.
  rewrite N.lor_spec, shiftl_bits, !N.lxor_spec.
  change (b mod M32) with (w32 b). rewrite w32_bits.
  change M32 with (2^32). rewrite <- N.shiftr_div_pow2, shiftr_bits.
  destruct (N.ltb_spec n 32).
  - destruct (N.leb_spec 32 n); [lia|]. btauto.
  - destruct (N.leb_spec 32 n); [|lia]. rewrite (testbit_small32 a) by assumption.
    replace (n - 32 + 32) with n by lia. btauto.
Qed.

Lemma temper_ref_numba s : tiny_words s ->
  tiny_temper Numba (tiny_arr s) = tinymt32_temper s + 2^32 * tiny_carry s.
Proof.
  destruct s as [[[s0 s1] s2] s3]. intros (H0 & H1 & H2 & H3).
  unfold tiny_temper, tinymt32_temper, tiny_arr, tiny_carry. cbn [aget nth].
  rewrite lsb_mul, N.shiftr_div_pow2. change (2^32) with M32 in *. change (2^8) with 256.
  set (t := s0 + s2 / 256) in *.
  assert (Ht : t < 2 * M32) by (unfold t; lia). clearbody t.
  rewrite w64_small by lia.
  change (t mod M32) with (w32 t). rewrite odd_w32. unfold TMAT.
  set (c := if N.odd t then _ else 0).
  assert (Hc : c < M32) by (unfold c; now destruct (N.odd t)). clearbody c.
  transitivity (N.lxor (N.lxor s3 c) t).
  { apply N.bits_inj; intro; rewrite !N.lxor_spec; btauto. }
  rewrite lxor_bit32 by (try apply lxor_lt32; assumption). f_equal. change (t mod M32) with (w32 t).
  apply N.bits_inj; intro; rewrite !N.lxor_spec; btauto.
Qed.
Lemma tiny_carry_le s : tiny_words s -> tiny_carry s <= 1.
Proof.
  destruct s as [[[s0 s1] s2] s3]. intros (H0 & H1 & H2 & H3). unfold tiny_carry.
  change (2^32) with M32 in *. change (2^8) with 256. lia.
Qed.

(** ** initialisation *)
Lemma mix_lt i prev base : base < M32 -> N.lxor base (w32 (0x6C078965 * N.lxor prev (N.shiftr prev 30) + i)) < M32.
Proof. intros H. apply lxor_lt32; [assumption|apply w32_lt]. Qed.

Definition tmix (i prev base : N) : N :=
  N.lxor base ((1812433253 * N.lxor prev (prev / 2^30) + i) mod 2^32).
Lemma tmix_eq i prev base :
  N.lxor base (w32 (0x6C078965 * N.lxor prev (N.shiftr prev 30) + i)) = tmix i prev base.
Proof. unfold tmix. now rewrite N.shiftr_div_pow2. Qed.
Lemma tmix_lt i prev base : base < M32 -> tmix i prev base < M32.
Proof. intros H. apply lxor_lt32; [assumption|apply N.mod_lt; discriminate]. Qed.

Lemma init_loop a b c d :
  for_range 7 1 tiny_init_step [a; b; c; d] =
  let u1 := tmix 1 a b in let u2 := tmix 2 u1 c in let u3 := tmix 3 u2 d in
  let u4 := tmix 4 u3 a in let u5 := tmix 5 u4 u1 in let u6 := tmix 6 u5 u2 in
  let u7 := tmix 7 u6 u3 in [u4; u5; u6; u7].
Proof.
  cbv zeta. cbn [for_range].
  assert (E1 : forall a b c d, tiny_init_step 1 [a; b; c; d] = [a; tmix 1 a b; c; d])
    by (intros; unfold tiny_init_step; cbn -[N.mul N.add w32]; now rewrite tmix_eq).
  assert (E2 : forall a b c d, tiny_init_step 2 [a; b; c; d] = [a; b; tmix 2 b c; d])
    by (intros; unfold tiny_init_step; cbn -[N.mul N.add w32]; now rewrite tmix_eq).
  assert (E3 : forall a b c d, tiny_init_step 3 [a; b; c; d] = [a; b; c; tmix 3 c d])
    by (intros; unfold tiny_init_step; cbn -[N.mul N.add w32]; now rewrite tmix_eq).
  assert (E4 : forall a b c d, tiny_init_step 4 [a; b; c; d] = [tmix 4 d a; b; c; d])
    by (intros; unfold tiny_init_step; cbn -[N.mul N.add w32]; now rewrite tmix_eq).
  assert (E5 : forall a b c d, tiny_init_step 5 [a; b; c; d] = [a; tmix 5 a b; c; d])
    by (intros; unfold tiny_init_step; cbn -[N.mul N.add w32]; now rewrite tmix_eq).
  assert (E6 : forall a b c d, tiny_init_step 6 [a; b; c; d] = [a; b; tmix 6 b c; d])
    by (intros; unfold tiny_init_step; cbn -[N.mul N.add w32]; now rewrite tmix_eq).
  assert (E7 : forall a b c d, tiny_init_step 7 [a; b; c; d] = [a; b; c; tmix 7 c d])
    by (intros; unfold tiny_init_step; cbn -[N.mul N.add w32]; now rewrite tmix_eq).
  rewrite E1, E2, E3, E4, E5, E6, E7. reflexivity.
Qed.

Lemma for_range_iter {S} (f : S -> S) n : forall lo s, for_range n lo (fun _ => f) s = N.iter (N.of_nat n) f s.
Proof.
  induction n as [|n IH]; intros lo s; [reflexivity|].
  cbn [for_range]. rewrite IH, Nat2N.inj_succ. now rewrite Niter_succ_r.
Qed.

Definition tinymt32_preinit (seed : N) : tstate :=
  let u0 := seed mod 2^32 in
  let u1 := tmix 1 u0 MAT1 in let u2 := tmix 2 u1 MAT2 in let u3 := tmix 3 u2 TMAT in
  let u4 := tmix 4 u3 u0 in let u5 := tmix 5 u4 u1 in let u6 := tmix 6 u5 u2 in
  let u7 := tmix 7 u6 u3 in
  if (u4 mod 2^31 + u5 + u6 + u7 =? 0) then (84, 73, 78, 89) else (u4, u5, u6, u7).
Lemma init_preinit seed : tinymt32_init seed = N.iter 8 tinymt32_next (tinymt32_preinit seed).
Proof. reflexivity. Qed.
Lemma preinit_words seed : tiny_words (tinymt32_preinit seed).
Proof.
  unfold tinymt32_preinit. cbv zeta.
  destruct (_ =? 0); [now vm_compute|].
  repeat split; repeat (apply tmix_lt); try reflexivity; apply N.mod_lt; discriminate.
Qed.
Lemma init_words seed : tiny_words (tinymt32_init seed).
Proof. rewrite init_preinit. apply (iter_ref NumPy). apply preinit_words. Qed.

Lemma re_init_ref m st seed : length st = 4%nat -> tiny_re_init m st seed = tiny_arr (tinymt32_init seed).
Proof.
  intros Hl. destruct st as [|j0 [|j1 [|j2 [|j3 [|? ?]]]]]; try discriminate. clear Hl.
  unfold tiny_re_init. cbn [aset]. rewrite init_loop. cbv zeta.
  rewrite for_range_iter. change (N.of_nat 8) with 8.
  rewrite init_preinit, <- (proj1 (iter_ref m _ 8 (preinit_words seed))). f_equal.
  unfold tinymt32_preinit. cbv zeta. unfold MAT1, MAT2, TMAT, w32. change (2^32) with M32.
  set (u1 := tmix 1 _ _). set (u2 := tmix 2 _ _). set (u3 := tmix 3 _ _). set (u4 := tmix 4 _ _).
  set (u5 := tmix 5 _ _). set (u6 := tmix 6 _ _). set (u7 := tmix 7 _ _).
  clearbody u4 u5 u6 u7. cbn [aget nth aset]. rewrite land_mask31.
  destruct (N.eqb_spec (u4 mod 2^31 + u5 + u6 + u7) 0) as [E|E].
  - destruct (N.eqb_spec (u4 mod 2^31) 0), (N.eqb_spec u5 0), (N.eqb_spec u6 0), (N.eqb_spec u7 0);
      try lia; reflexivity.
  - destruct (N.eqb_spec (u4 mod 2^31) 0), (N.eqb_spec u5 0), (N.eqb_spec u6 0), (N.eqb_spec u7 0);
      try lia; reflexivity.
Qed.

(** ** the zero state *)
Definition t127_zero (s : tstate) : Prop := tiny127 s = (0, 0, 0, 0).

Lemma tmix_0 i base : tmix i 0 base = N.lxor base (i mod 2^32).
Proof. unfold tmix. change (N.lxor 0 (0 / 2^30)) with 0. now rewrite N.mul_0_r, N.add_0_l. Qed.

(** The words before certification are never zero, so 'TINY' is never stored. *)
Lemma never_certified seed :
  let u0 := seed mod 2^32 in
  let u1 := tmix 1 u0 MAT1 in let u2 := tmix 2 u1 MAT2 in let u3 := tmix 3 u2 TMAT in
  let u4 := tmix 4 u3 u0 in let u5 := tmix 5 u4 u1 in let u6 := tmix 6 u5 u2 in
  let u7 := tmix 7 u6 u3 in u4 mod 2^31 + u5 + u6 + u7 <> 0.
Proof.
  cbv zeta. set (u1 := tmix 1 _ MAT1). set (u2 := tmix 2 u1 MAT2). set (u3 := tmix 3 u2 TMAT).
  set (u4 := tmix 4 _ _). set (u5 := tmix 5 _ _). set (u6 := tmix 6 _ _). set (u7 := tmix 7 _ _).
  intros H. assert (E5 : u5 = 0) by lia. assert (E6 : u6 = 0) by lia. assert (E7 : u7 = 0) by lia.
  unfold u7 in E7. rewrite E6, tmix_0 in E7. apply N.lxor_eq in E7.
  unfold u6 in E6. rewrite E5, tmix_0 in E6. apply N.lxor_eq in E6.
  unfold u3 in E7. rewrite E6 in E7. vm_compute in E7. discriminate E7.
Qed.

Lemma preinit_nonzero seed : ~ t127_zero (tinymt32_preinit seed).
Proof.
  pose proof (never_certified seed) as H. cbv zeta in H. unfold tinymt32_preinit. cbv zeta.
  set (u4 := tmix 4 _ _) in *. set (u5 := tmix 5 _ _) in *. set (u6 := tmix 6 _ _) in *. set (u7 := tmix 7 _ _) in *.
  apply N.eqb_neq in H. rewrite H. unfold t127_zero, tiny127. intros E. inversion E as [[A B C D]].
  apply N.eqb_neq in H. lia.
Qed.

Lemma preinit_uncertified seed : tinymt32_preinit seed = tinymt32_words seed.
Proof.
  pose proof (never_certified seed) as H. cbv zeta in H. apply N.eqb_neq in H.
  unfold tinymt32_preinit. cbv zeta. rewrite H. reflexivity.
Qed.
Lemma tiny_uncertified m junk seed : length junk = 4%nat ->
  tiny127 (tinymt32_words seed) <> (0, 0, 0, 0) /\
  tiny_new m junk seed = tiny_arr (N.iter 8 tinymt32_next (tinymt32_words seed)).
Proof.
  intros Hl. rewrite <- preinit_uncertified. split; [exact (preinit_nonzero seed)|].
  unfold tiny_new. rewrite re_init_ref by assumption. now rewrite init_preinit.
Qed.

(** ** the step is invertible on 127 bits *)
(** f_a(x) = x ^ (x << a) etc. are undone by doubling a. *)
Definition gray_inv (y : N) : N :=
  let y := N.lxor y (N.shiftr y 1) in
  let y := N.lxor y (N.shiftr y 2) in
  let y := N.lxor y (N.shiftr y 4) in
  let y := N.lxor y (N.shiftr y 8) in
  N.lxor y (N.shiftr y 16).
Definition sl1_inv (x : N) : N :=
  let x := N.lxor x (shl32 x 1) in
  let x := N.lxor x (shl32 x 2) in
  let x := N.lxor x (shl32 x 4) in
  let x := N.lxor x (shl32 x 8) in
  N.lxor x (shl32 x 16).

Lemma xsr_twice k x : N.lxor (N.lxor x (N.shiftr x k)) (N.shiftr (N.lxor x (N.shiftr x k)) k)
  = N.lxor x (N.shiftr x (2 * k)).
Proof.
  apply N.bits_inj; intro n. rewrite !N.lxor_spec, !shiftr_bits, !N.lxor_spec, !shiftr_bits.
  replace (n + 2 * k) with (n + k + k) by lia. btauto.
Qed.
Lemma xsl_twice k x : N.lxor (N.lxor x (shl32 x k)) (shl32 (N.lxor x (shl32 x k)) k)
  = N.lxor x (shl32 x (2 * k)).
Proof.
  unfold shl32. apply N.bits_inj; intro n.
  rewrite !N.lxor_spec, !w32_bits, !shiftl_bits, !N.lxor_spec, !w32_bits, !shiftl_bits.
  replace (n - 2 * k) with (n - k - k) by lia.
  destruct (N.ltb_spec n 32), (N.leb_spec k n), (N.ltb_spec (n - k) 32), (N.leb_spec k (n - k)), (N.leb_spec (2 * k) n);
    try lia; btauto.
Qed.
Lemma gray_inv_ok x : x < M32 -> gray_inv (N.lxor x (N.shiftr x 1)) = x.
Proof.
  intros H. unfold gray_inv. cbv zeta.
  rewrite (xsr_twice 1). change (2 * 1) with 2. rewrite (xsr_twice 2). change (2 * 2) with 4.
  rewrite (xsr_twice 4). change (2 * 4) with 8. rewrite (xsr_twice 8). change (2 * 8) with 16.
  rewrite (xsr_twice 16). change (2 * 16) with 32.
  replace (N.shiftr x 32) with 0; [apply N.lxor_0_r|].
  rewrite N.shiftr_div_pow2. symmetry. now apply N.div_small.
Qed.
Lemma sl1_inv_ok x : x < M32 -> sl1_inv (N.lxor x (shl32 x 1)) = x.
Proof.
  intros H. unfold sl1_inv. cbv zeta.
  rewrite (xsl_twice 1). change (2 * 1) with 2. rewrite (xsl_twice 2). change (2 * 2) with 4.
  rewrite (xsl_twice 4). change (2 * 4) with 8. rewrite (xsl_twice 8). change (2 * 8) with 16.
  rewrite (xsl_twice 16). change (2 * 16) with 32.
  replace (shl32 x 32) with 0; [apply N.lxor_0_r|].
  rewrite shl32_mul. symmetry. apply N.mod_mul. discriminate.
Qed.

(** The previous 127-bit state. *)
Definition tinymt32_prev (s : tstate) : tstate :=
  let '(s0, s1, s2, s3) := s in
  let y := s3 in
  let p2 := N.lxor s1 (if N.odd y then MAT1 else 0) in
  let x := N.lxor (N.lxor s2 (y * 2^10 mod 2^32)) (if N.odd y then MAT2 else 0) in
  let p3 := gray_inv (N.lxor y x) in
  let x0 := sl1_inv x in
  let p1 := s0 mod 2^31 + 2^31 * (N.lxor x0 p2 / 2^31) in
  (N.lxor x0 (N.lxor p1 p2), p1, p2, p3).

Lemma split31 x : x mod 2^31 + 2^31 * (x / 2^31) = x.
Proof. rewrite N.add_comm. symmetry. apply N.div_mod. discriminate. Qed.
Lemma high31_eq a b : a mod 2^31 = b mod 2^31 -> a / 2^31 = b / 2^31 -> a = b.
Proof. intros H1 H2. now rewrite <- (split31 a), <- (split31 b), H1, H2. Qed.
Lemma lxor_high31 a b : N.lxor a b / 2^31 = N.lxor (a / 2^31) (b / 2^31).
Proof. rewrite <- !N.shiftr_div_pow2. apply N.shiftr_lxor. Qed.
Lemma lxor_low31 a b : N.lxor a b mod 2^31 = N.lxor (a mod 2^31) (b mod 2^31).
Proof. apply linear_mod_pow2. Qed.

Lemma next_tiny127 s : tinymt32_next (tiny127 s) = tinymt32_next s.
Proof.
  destruct s as [[[s0 s1] s2] s3]. unfold tiny127, tinymt32_next. cbv zeta.
  now rewrite N.mod_mod by discriminate.
Qed.

Lemma prev_next s : tiny_words s -> tinymt32_prev (tiny127 (tinymt32_next s)) = tiny127 s.
Proof.
  destruct s as [[[s0 s1] s2] s3]. intros (H0 & H1 & H2 & H3).
  unfold tinymt32_next. cbv zeta.
  set (x0 := N.lxor (s0 mod 2 ^ 31) (N.lxor s1 s2)).
  assert (Hx0 : x0 < M32) by (repeat apply lxor_lt32; try assumption; apply mod31_lt).
  set (x := N.lxor x0 (x0 * 2 mod 2^32)).
  set (y := N.lxor s3 (N.lxor (s3 / 2) x)).
  unfold tiny127, tinymt32_prev. cbv zeta.
  set (c1 := if N.odd y then MAT1 else 0). set (c2 := if N.odd y then MAT2 else 0).
  assert (E2 : N.lxor (N.lxor s2 c1) c1 = s2)
    by (apply N.bits_inj; intro; rewrite !N.lxor_spec; btauto).
  assert (Ex : N.lxor (N.lxor (N.lxor (N.lxor x (y * 2^10 mod 2^32)) c2) (y * 2^10 mod 2^32)) c2 = x)
    by (apply N.bits_inj; intro; rewrite !N.lxor_spec; btauto).
  rewrite E2, Ex.
  assert (E3 : gray_inv (N.lxor y x) = s3).
  { rewrite <- (gray_inv_ok s3) by exact H3. f_equal. unfold y. rewrite N.shiftr_div_pow2. change (2^1) with 2.
    apply N.bits_inj; intro; rewrite !N.lxor_spec; btauto. }
  assert (E0 : sl1_inv x = x0).
  { unfold x. change (x0 * 2 mod 2^32) with (x0 * 2^1 mod 2^32). rewrite <- (shl32_mul x0 1). now apply sl1_inv_ok. }
  rewrite E3, E0.
  assert (E1 : (s1 mod 2^31) mod 2^31 + 2^31 * (N.lxor x0 s2 / 2^31) = s1).
  { rewrite N.mod_mod by discriminate. rewrite <- (split31 s1) at 2. do 2 f_equal.
    unfold x0. rewrite !lxor_high31. replace (s0 mod 2^31 / 2^31) with 0.
    2: { symmetry. apply N.div_small, N.mod_lt. discriminate. }
    apply N.bits_inj; intro; rewrite !N.lxor_spec, N.bits_0; btauto. }
  rewrite E1. f_equal. f_equal. f_equal.
  unfold x0. apply N.bits_inj; intro; rewrite !N.lxor_spec; btauto.
Qed.

Lemma next_zero s : tiny_words s -> t127_zero (tinymt32_next s) -> t127_zero s.
Proof.
  intros Hw H. unfold t127_zero in *. rewrite <- (prev_next s Hw), H. now vm_compute.
Qed.

Lemma iter_nonzero seed n : ~ t127_zero (N.iter n tinymt32_next (tinymt32_init seed)).
Proof.
  rewrite init_preinit, <- Niter_add. set (k := n + 8). clearbody k.
  induction k as [|k IH] using N.peano_ind; [apply preinit_nonzero|].
  rewrite N.iter_succ. intros H. apply IH. eapply next_zero; [|exact H].
  apply (iter_ref NumPy), preinit_words.
Qed.

Lemma next_inj s s' : tiny_words s -> tiny_words s' ->
  tiny127 (tinymt32_next s) = tiny127 (tinymt32_next s') -> tiny127 s = tiny127 s'.
Proof. intros H H' E. now rewrite <- (prev_next s H), <- (prev_next s' H'), E. Qed.

(** Every 127-bit state has a predecessor. *)
Lemma gray_lt x : x < M32 -> gray_inv x < M32.
Proof. intros H. unfold gray_inv. cbv zeta. repeat (apply lxor_lt32; [|apply shiftr_lt32]); assumption. Qed.
Lemma sl1_lt x : x < M32 -> sl1_inv x < M32.
Proof. intros H. unfold sl1_inv. cbv zeta. repeat (apply lxor_lt32; [|apply w32_lt]). assumption. Qed.
Lemma gray_ok x : x < M32 -> N.lxor (gray_inv x) (N.shiftr (gray_inv x) 1) = x.
Proof.
  intros H. unfold gray_inv. cbv zeta.
  assert (C : forall i j z, N.lxor (N.lxor z (N.shiftr z i)) (N.shiftr (N.lxor z (N.shiftr z i)) j) =
                            N.lxor (N.lxor z (N.shiftr z j)) (N.shiftr (N.lxor z (N.shiftr z j)) i)).
  { intros i j z. apply N.bits_inj; intro n. rewrite !N.lxor_spec, !shiftr_bits, !N.lxor_spec, !shiftr_bits.
    replace (n + j + i) with (n + i + j) by lia. btauto. }
  rewrite (C 16 1), (C 8 1), (C 4 1), (C 2 1), (xsr_twice 1).
  change (2 * 1) with 2. rewrite (xsr_twice 2).
  change (2 * 2) with 4. rewrite (xsr_twice 4).
  change (2 * 4) with 8. rewrite (xsr_twice 8).
  change (2 * 8) with 16. rewrite (xsr_twice 16). change (2 * 16) with 32.
  replace (N.shiftr x 32) with 0; [apply N.lxor_0_r|].
  rewrite N.shiftr_div_pow2. symmetry. now apply N.div_small.
Qed.
Lemma sl1_ok x : N.lxor (sl1_inv x) (shl32 (sl1_inv x) 1) = x.
Proof.
  unfold sl1_inv. cbv zeta.
  assert (C : forall i j z, N.lxor (N.lxor z (shl32 z i)) (shl32 (N.lxor z (shl32 z i)) j) =
                            N.lxor (N.lxor z (shl32 z j)) (shl32 (N.lxor z (shl32 z j)) i)).
  { intros i j z. unfold shl32. apply N.bits_inj; intro n.
    rewrite !N.lxor_spec, !w32_bits, !shiftl_bits, !N.lxor_spec, !w32_bits, !shiftl_bits.
    replace (n - j - i) with (n - i - j) by lia.
    destruct (N.ltb_spec n 32), (N.leb_spec j n), (N.leb_spec i n), (N.ltb_spec (n - j) 32), (N.ltb_spec (n - i) 32),
      (N.leb_spec i (n - j)), (N.leb_spec j (n - i)); try lia; btauto. }
  rewrite (C 16 1), (C 8 1), (C 4 1), (C 2 1), (xsl_twice 1).
  change (2 * 1) with 2. rewrite (xsl_twice 2).
  change (2 * 2) with 4. rewrite (xsl_twice 4).
  change (2 * 4) with 8. rewrite (xsl_twice 8).
  change (2 * 8) with 16. rewrite (xsl_twice 16). change (2 * 16) with 32.
  replace (shl32 x 32) with 0; [apply N.lxor_0_r|].
  rewrite shl32_mul. symmetry. apply N.mod_mul. discriminate.
Qed.

Lemma prev_ok s : tiny_words s ->
  tiny_words (tinymt32_prev s) /\ tiny127 (tinymt32_next (tinymt32_prev s)) = tiny127 s /\
  tiny127 (tinymt32_prev s) = tinymt32_prev s.
Proof.
  destruct s as [[[s0 s1] s2] s3]. intros (H0 & H1 & H2 & H3).
  unfold tinymt32_prev. cbv zeta.
  set (c1 := if N.odd s3 then MAT1 else 0). set (c2 := if N.odd s3 then MAT2 else 0).
  assert (Hc1 : c1 < M32) by (unfold c1; now destruct (N.odd s3)).
  assert (Hc2 : c2 < M32) by (unfold c2; now destruct (N.odd s3)).
  set (p2 := N.lxor s1 c1).
  assert (Hp2 : p2 < M32) by now apply lxor_lt32.
  set (x := N.lxor (N.lxor s2 (s3 * 2^10 mod 2^32)) c2).
  assert (Hx : x < M32) by (repeat apply lxor_lt32; try assumption; apply N.mod_lt; discriminate).
  set (p3 := gray_inv (N.lxor s3 x)).
  assert (Hp3 : p3 < M32) by (now apply gray_lt, lxor_lt32).
  set (x0 := sl1_inv x).
  assert (Hx0 : x0 < M32) by now apply sl1_lt.
  set (h := N.lxor x0 p2).
  assert (Hh : h < M32) by now apply lxor_lt32.
  set (p1 := s0 mod 2^31 + 2^31 * (h / 2^31)).
  assert (Ep1h : p1 / 2^31 = h / 2^31).
  { unfold p1. change (2^31) with 2147483648. lia. }
  assert (Ep1l : p1 mod 2^31 = s0 mod 2^31).
  { unfold p1. change (2^31) with 2147483648. lia. }
  assert (Hp1 : p1 < M32).
  { unfold p1. change (2^31) with 2147483648. lia. }
  assert (Ep0 : N.lxor x0 (N.lxor p1 p2) / 2^31 = 0).
  { rewrite !lxor_high31, Ep1h. unfold h. rewrite lxor_high31.
    apply N.bits_inj; intro; rewrite !N.lxor_spec, N.bits_0; btauto. }
  assert (Ep0' : N.lxor x0 (N.lxor p1 p2) mod 2^31 = N.lxor x0 (N.lxor p1 p2)).
  { rewrite <- (split31 (N.lxor x0 (N.lxor p1 p2))) at 2. rewrite Ep0. lia. }
  clearbody p1.
  split; [|split].
  - split; [|now repeat split]. exact (lxor_lt32 _ _ Hx0 (lxor_lt32 _ _ Hp1 Hp2)).
  - unfold tinymt32_next. cbv zeta. rewrite Ep0'.
    assert (E0 : N.lxor (N.lxor x0 (N.lxor p1 p2)) (N.lxor p1 p2) = x0)
      by (apply N.bits_inj; intro; rewrite !N.lxor_spec; btauto).
    rewrite E0.
    assert (Ex : N.lxor x0 (x0 * 2 mod 2^32) = x).
    { change (x0 * 2 mod 2^32) with (x0 * 2^1 mod 2^32). rewrite <- (shl32_mul x0 1). apply sl1_ok. }
    rewrite Ex.
    assert (Ey : N.lxor p3 (N.lxor (p3 / 2) x) = s3).
    { rewrite <- N.lxor_assoc. replace (p3 / 2) with (N.shiftr p3 1) by (now rewrite N.shiftr_div_pow2).
      unfold p3. rewrite gray_ok by now apply lxor_lt32.
      apply N.bits_inj; intro; rewrite !N.lxor_spec; btauto. }
    rewrite Ey. fold c1 c2. unfold tiny127. rewrite Ep1l.
    apply quad_eq; [reflexivity| | |reflexivity].
    + unfold p2. apply N.bits_inj; intro; rewrite !N.lxor_spec; btauto.
    + unfold x. apply N.bits_inj; intro; rewrite !N.lxor_spec; btauto.
  - unfold tiny127. now rewrite Ep0'.
Qed.

(** ** histories *)
Lemma call_ref st s op : st = tiny_arr s -> tiny_words s -> tiny_op_valid op ->
  tiny_call NumPy st op = (tiny_arr (fst (tiny_abs s op)), snd (tiny_abs s op)) /\
  tiny_words (fst (tiny_abs s op)).
Proof.
  intros -> Hw Hv. pose proof (next_words s Hw) as Hw'.
  pose proof (temper_ref_numpy _ Hw') as Et. pose proof (temper_ref_lt _ Hw') as Hr.
  destruct op; cbn [tiny_call tiny_abs fst snd tiny_op_valid] in *; unfold tiny_next_rand, tiny_next_rand_mod, tiny_next;
    cbv zeta; rewrite ?(shuffle_ref NumPy s Hw), ?Et; try (split; [reflexivity|assumption]).
  - now rewrite temper_ref_numpy.
  - unfold tiny_advance. destruct (iter_ref NumPy s adv Hw) as [-> H]. now split.
  - split; [|assumption]. do 2 f_equal. change (2^32) with M32 in *.
    rewrite (w64_small (tinymt32_temper _)) by lia. rewrite (w64_small maximum) by lia.
    rewrite w64_small by nia. rewrite N.shiftr_div_pow2. change (2^32) with M32.
    apply w32_small. apply N.div_lt_upper_bound; [discriminate|]. nia.
  - split; [|assumption]. do 2 f_equal. change (2^32) with M32 in *. rewrite w32_small by lia.
    unfold umod. destruct (N.eqb_spec maximum 0); [lia|]. reflexivity.
  - rewrite re_init_ref by (destruct s as [[[? ?] ?] ?]; reflexivity). split; [reflexivity|apply init_words].
Qed.

Lemma calls_ref ops : forall s, tiny_words s -> Forall tiny_op_valid ops ->
  snd (tiny_calls NumPy (tiny_arr s) ops) = tiny_abs_run s ops.
Proof.
  induction ops as [|op ops IH]; intros s Hw Hv; [reflexivity|].
  inversion Hv as [|? ? Hop Hv']; subst. cbn [tiny_calls tiny_abs_run].
  destruct (call_ref _ s op eq_refl Hw Hop) as [E H]. rewrite E.
  destruct (tiny_abs s op) as [s' o]. cbn [fst snd] in *.
  specialize (IH s' H Hv'). destruct (tiny_calls NumPy (tiny_arr s') ops). cbn [snd] in *. now f_equal.
Qed.

Lemma tiny_history junk seed ops : length junk = 4%nat -> Forall tiny_op_valid ops ->
  snd (tiny_calls NumPy (tiny_new NumPy junk seed) ops) = tiny_abs_run (tinymt32_init seed) ops.
Proof.
  intros Hl Hv. unfold tiny_new. rewrite re_init_ref by assumption.
  apply calls_ref; [apply init_words|assumption].
Qed.

(** The states of both modes coincide for any calls. *)
Definition ref_op (s : tstate) (op : tiny_op) : tstate := fst (tiny_abs s op).
Lemma call_state m s op : tiny_words s ->
  fst (tiny_call m (tiny_arr s) op) = tiny_arr (ref_op s op) /\ tiny_words (ref_op s op).
Proof.
  intros Hw. pose proof (next_words s Hw) as Hw'. unfold ref_op.
  destruct op; cbn [tiny_call tiny_abs fst]; unfold tiny_next_rand, tiny_next_rand_mod, tiny_next;
    cbv zeta; cbn [fst]; rewrite ?(shuffle_ref m s Hw); try (split; [reflexivity|assumption]).
  - unfold tiny_advance. destruct (iter_ref m s adv Hw) as [-> H]. now split.
  - rewrite re_init_ref by (destruct s as [[[? ?] ?] ?]; reflexivity). split; [reflexivity|apply init_words].
Qed.
Lemma calls_state m ops : forall s, tiny_words s ->
  exists s', fst (tiny_calls m (tiny_arr s) ops) = tiny_arr s' /\ tiny_words s' /\
    forall m', fst (tiny_calls m' (tiny_arr s) ops) = tiny_arr s'.
Proof.
  induction ops as [|op ops IH]; intros s Hw; [now exists s|].
  destruct (IH (ref_op s op) (proj2 (call_state m s op Hw))) as (s' & E & H & A).
  exists s'. split; [|split; [assumption|]].
  - cbn [tiny_calls]. pose proof (call_state m s op Hw) as [E1 _].
    destruct (tiny_call m (tiny_arr s) op) as [st o]. cbn [fst] in E1. rewrite E1.
    destruct (tiny_calls m (tiny_arr (ref_op s op)) ops). exact E.
  - intros m'. cbn [tiny_calls]. pose proof (call_state m' s op Hw) as [E1 _].
    destruct (tiny_call m' (tiny_arr s) op) as [st o]. cbn [fst] in E1. rewrite E1.
    specialize (A m'). destruct (tiny_calls m' (tiny_arr (ref_op s op)) ops). exact A.
Qed.
Lemma reached_words m st : tiny_reached m st -> exists s, st = tiny_arr s /\ tiny_words s.
Proof.
  intros (junk & seed & ops & Hl & ->). unfold tiny_new. rewrite re_init_ref by assumption.
  destruct (calls_state m ops _ (init_words seed)) as (s' & E & H & _). now exists s'.
Qed.

(** ** statements *)
Lemma arr_inj s s' : tiny_arr s = tiny_arr s' -> s = s'.
Proof. destruct s as [[[? ?] ?] ?], s' as [[[? ?] ?] ?]. cbn. now intros [= -> -> -> ->]. Qed.

Lemma tiny_output m junk seed n : length junk = 4%nat ->
  let st := tiny_advance m (tiny_new m junk seed) n in
  w32 (snd (tiny_next m st)) = tinymt32_output seed n /\
  (m = NumPy -> snd (tiny_next m st) = tinymt32_output seed n).
Proof.
  intros Hl. cbv zeta. unfold tiny_new. rewrite re_init_ref by assumption.
  unfold tiny_advance. destruct (iter_ref m _ n (init_words seed)) as [-> Hw].
  unfold tiny_next. cbv zeta. cbn [snd]. rewrite shuffle_ref by assumption.
  pose proof (next_words _ Hw) as Hw'.
  unfold tinymt32_output. rewrite N.add_1_r, N.iter_succ.
  pose proof (temper_ref_lt _ Hw') as L. destruct m.
  - rewrite temper_ref_numpy by assumption. split; [|reflexivity]. now apply w32_small.
  - rewrite temper_ref_numba by assumption. split; [|discriminate].
    unfold w32. change (2^32) with M32. lia.
Qed.

Lemma tiny_modes m st : tiny_reached m st ->
  tiny_shuffle Numba st = tiny_shuffle NumPy st /\
  tiny_temper NumPy st < 2^32 /\
  tiny_temper Numba st = tiny_temper NumPy st + 2^32 * ((aget st 0 + aget st 2 / 2^8) / 2^32) /\
  tiny_temper Numba st < 2^33.
Proof.
  intros H. destruct (reached_words m st H) as (s & -> & Hw). pose proof (temper_ref_lt s Hw) as L.
  split; [now rewrite !shuffle_ref|]. rewrite temper_ref_numpy, temper_ref_numba by assumption.
  split; [exact L|]. pose proof (tiny_carry_le s Hw).
  split; [destruct s as [[[s0 s1] s2] s3]; reflexivity|].
  change (2^33) with (2 * M32). change (2^32) with M32. lia.
Qed.

Lemma tiny_nonzero m junk seed n : length junk = 4%nat ->
  exists s, tiny_advance m (tiny_new m junk seed) n = tiny_arr s /\ tiny_words s /\ tiny127 s <> (0, 0, 0, 0).
Proof.
  intros Hl. unfold tiny_new. rewrite re_init_ref by assumption.
  unfold tiny_advance. destruct (iter_ref m _ n (init_words seed)) as [-> Hw].
  eexists. split; [reflexivity|]. split; [assumption|]. apply iter_nonzero.
Qed.

Lemma tiny_step_inj m s s' : tiny_words s -> tiny_words s' ->
  forall t t', tiny_shuffle m (tiny_arr s) = tiny_arr t -> tiny_shuffle m (tiny_arr s') = tiny_arr t' ->
  (tiny127 t = tiny127 t' <-> tiny127 s = tiny127 s').
Proof.
  intros Hs Hs' t t' Ht Ht'. rewrite shuffle_ref in Ht, Ht' by assumption.
  apply arr_inj in Ht, Ht'. subst t t'. split.
  - now apply next_inj.
  - intros E. rewrite <- (next_tiny127 s), <- (next_tiny127 s'). now rewrite E.
Qed.
Lemma tiny_step_surj m t : tiny_words t ->
  exists s t', tiny_words s /\ tiny_shuffle m (tiny_arr s) = tiny_arr t' /\ tiny127 t' = tiny127 t.
Proof.
  intros Ht. destruct (prev_ok t Ht) as (H1 & H2 & _).
  exists (tinymt32_prev t), (tinymt32_next (tinymt32_prev t)).
  split; [assumption|]. split; [now apply shuffle_ref|assumption].
Qed.

Lemma tiny_re_init_fresh m m' st junk seed : tiny_reached m st -> length junk = 4%nat ->
  tiny_re_init m' st seed = tiny_new m' junk seed /\
  forall ops, snd (tiny_calls m' (tiny_re_init m' st seed) ops) = snd (tiny_calls m' (tiny_new m' junk seed) ops).
Proof.
  intros H Hl. destruct (reached_words m st H) as (s & -> & _).
  assert (E : tiny_re_init m' (tiny_arr s) seed = tiny_new m' junk seed).
  { unfold tiny_new. rewrite !re_init_ref; auto. destruct s as [[[? ?] ?] ?]; reflexivity. }
  split; [exact E|]. intros. now rewrite E.
Qed.

Lemma tiny_rand_numpy st maximum : tiny_reached NumPy st -> 1 <= maximum < 2^32 ->
  snd (tiny_next_rand NumPy st maximum) = snd (tiny_next NumPy st) * maximum / 2^32 /\
  snd (tiny_next_rand NumPy st maximum) < maximum /\
  fst (tiny_next_rand NumPy st maximum) = fst (tiny_next NumPy st) /\
  tiny_next_rand_mod NumPy st maximum = (fst (tiny_next NumPy st), Ok (snd (tiny_next NumPy st) mod maximum)) /\
  snd (tiny_next NumPy st) mod maximum < maximum.
Proof.
  intros H Hm. destruct (reached_words _ st H) as (s & -> & Hw).
  destruct (call_ref _ s (TRand maximum) eq_refl Hw) as [E1 _]; [apply Hm|].
  destruct (call_ref _ s (TRandMod maximum) eq_refl Hw) as [E2 _]; [cbn; lia|].
  destruct (call_ref _ s TNext eq_refl Hw I) as [E3 _].
  cbn [tiny_call tiny_abs fst snd] in E1, E2, E3.
  pose proof (temper_ref_lt _ (next_words s Hw)) as L.
  destruct (tiny_next_rand NumPy (tiny_arr s) maximum) as [st1 r1].
  destruct (tiny_next_rand_mod NumPy (tiny_arr s) maximum) as [st2 r2].
  destruct (tiny_next NumPy (tiny_arr s)) as [st3 r3]. cbn [fst snd].
  inversion E1; inversion E2; inversion E3; subst.
  destruct r2; [|discriminate]. match goal with H : of_res _ = _ |- _ => injection H as -> end.
  change (2^32) with M32 in *.
  repeat split; try reflexivity.
  - apply N.div_lt_upper_bound; [discriminate|]. nia.
  - apply N.mod_lt. lia.
Qed.

(** Under numba, as long as the sum in temper has no carry. *)
Lemma tiny_rand_numba st maximum : tiny_reached Numba st -> 1 <= maximum < 2^32 ->
  (snd (tiny_next Numba st) < 2^32 ->
     snd (tiny_next_rand Numba st maximum) = snd (tiny_next Numba st) * maximum / 2^32 /\
     snd (tiny_next_rand Numba st maximum) < maximum) /\
  (2^32 <= snd (tiny_next Numba st) -> maximum < 2^31 ->
     maximum <= snd (tiny_next_rand Numba st maximum)) /\
  tiny_next_rand_mod Numba st maximum = (fst (tiny_next Numba st), Ok (snd (tiny_next Numba st) mod maximum)) /\
  snd (tiny_next Numba st) mod maximum < maximum.
Proof.
  intros H Hm. destruct (reached_words _ st H) as (s & -> & Hw).
  unfold tiny_next_rand, tiny_next_rand_mod.
  assert (B : snd (tiny_next Numba (tiny_arr s)) < 2 * M32).
  { unfold tiny_next. cbv zeta. cbn [snd]. rewrite shuffle_ref by assumption.
    pose proof (next_words s Hw) as Hw'. rewrite temper_ref_numba by assumption.
    pose proof (temper_ref_lt _ Hw'). pose proof (tiny_carry_le _ Hw'). change (2^32) with M32. lia. }
  destruct (tiny_next Numba (tiny_arr s)) as [st' r]. cbn [fst snd] in *. change (2^32) with M32 in *.
  change (2^31) with 2147483648.
  rewrite (w64_small r) by lia. rewrite (w64_small maximum) by lia. rewrite N.shiftr_div_pow2.
  change (2^32) with M32. split; [|split; [|split]].
  - intros Hr. rewrite w64_small by nia.
    assert (r * maximum / M32 < maximum) by (apply N.div_lt_upper_bound; [discriminate|]; nia).
    rewrite w32_small by lia. now split.
  - intros Hr Hx. rewrite w64_small by nia.
    assert (r * maximum / M32 < 2 * maximum) by (apply N.div_lt_upper_bound; [discriminate|]; nia).
    rewrite w32_small by lia. apply N.div_le_lower_bound; [discriminate|]. nia.
  - rewrite w32_small by lia. unfold umod. destruct (N.eqb_spec maximum 0); [lia|]. reflexivity.
  - apply N.mod_lt. lia.
Qed.
