From Coq Require Import NArith ZArith List Bool Lia.
From Coq Require Import ZifyBool ZifyNat ZifyN.
From Verif Require Import Base.Word Base.WordLemmas Model.TinyMT Spec.TinySpec.
From Verif Require Import Proofs.GF2 Proofs.Orbit Proofs.GF2Period Proofs.TinyProofs Proofs.XorshiftProofs.
Import ListNotations.
Open Scope N_scope.
Ltac Zify.zify_post_hook ::= idtac.

(** The 127 bits in one number, the first word on top. *)
Definition tpack (s : tstate) : N :=
  let '(s0, s1, s2, s3) := s in s1 + 2^32 * (s2 + 2^32 * (s3 + 2^32 * (s0 mod 2^31))).

Definition lo32 (v : N) : N := N.land v 0xFFFFFFFF.
Definition lo31 (v : N) : N := N.land v 0x7FFFFFFF.
Lemma lo32_mod v : lo32 v = v mod 2^32.
Proof. exact (N.land_ones v 32). Qed.
Lemma lo31_mod v : lo31 v = v mod 2^31.
Proof. exact (N.land_ones v 31). Qed.
Definition bitc (c y : N) : N := if N.odd y then c else 0.
Lemma bitc_linear c : linear (bitc c).
Proof.
  intros x y. unfold bitc. rewrite odd_lxor. destruct (N.odd x), (N.odd y); cbn [xorb];
    now rewrite ?N.lxor_nilpotent, ?N.lxor_0_l, ?N.lxor_0_r.
Qed.
Definition tsl (x : N) : N := N.lxor x (lo32 (N.shiftl x 1)).
(** x-word and y-word of the step. *)
Definition tX (v : N) : N := tsl (N.lxor (N.shiftr v 96) (N.lxor (lo32 v) (lo32 (N.shiftr v 32)))).
Definition tY (v : N) : N := N.lxor (xr 1 (lo32 (N.shiftr v 64))) (tX v).
Definition tT2 (v x y : N) : N :=
  N.lxor (N.lxor (lo32 (N.shiftr v 32)) (bitc MAT1 y))
    (N.shiftl (N.lxor (N.lxor (N.lxor x (lo32 (N.shiftl y 10))) (bitc MAT2 y))
       (N.shiftl (N.lxor y (N.shiftl (lo31 (lo32 v)) 32)) 32)) 32).
Definition tT (v : N) : N := tT2 v (tX v) (tY v).

Lemma lo32_linear : linear lo32.
Proof. apply linear_land. Qed.
Lemma lo32_shr_linear k : linear (fun v => lo32 (N.shiftr v k)).
Proof. apply (linear_comp lo32); [apply lo32_linear|apply linear_shiftr]. Qed.
Lemma tX_linear : linear tX.
Proof.
  assert (L : linear tsl).
  { apply (linear_lxor (fun x => x)); [apply linear_id|].
    apply (linear_comp lo32); [apply lo32_linear|apply linear_shiftl]. }
  apply (linear_comp tsl); [exact L|].
  apply (linear_lxor (fun v => N.shiftr v 96)); [apply linear_shiftr|].
  apply (linear_lxor lo32); [apply lo32_linear|apply lo32_shr_linear].
Qed.
Lemma tY_linear : linear tY.
Proof.
  apply (linear_lxor (fun v => xr 1 (lo32 (N.shiftr v 64)))); [|apply tX_linear].
  apply (linear_comp (xr 1)); [|apply lo32_shr_linear].
  apply (linear_lxor (fun a => a)); [apply linear_id|apply linear_shiftr].
Qed.
Lemma tT_linear : linear tT.
Proof.
  apply (linear_lxor (fun v => N.lxor (lo32 (N.shiftr v 32)) (bitc MAT1 (tY v)))).
  - apply (linear_lxor (fun v => lo32 (N.shiftr v 32))); [apply lo32_shr_linear|].
    apply (linear_comp (bitc MAT1)); [apply bitc_linear|apply tY_linear].
  - apply (linear_comp (fun a => N.shiftl a 32)); [apply linear_shiftl|].
    apply (linear_lxor (fun v => N.lxor (N.lxor (tX v) (lo32 (N.shiftl (tY v) 10))) (bitc MAT2 (tY v)))).
    + apply (linear_lxor (fun v => N.lxor (tX v) (lo32 (N.shiftl (tY v) 10)))).
      * apply (linear_lxor tX); [apply tX_linear|]. apply (linear_comp lo32); [apply lo32_linear|].
        apply (linear_comp (fun a => N.shiftl a 10)); [apply linear_shiftl|apply tY_linear].
      * apply (linear_comp (bitc MAT2)); [apply bitc_linear|apply tY_linear].
    + apply (linear_comp (fun a => N.shiftl a 32)); [apply linear_shiftl|].
      apply (linear_lxor tY); [apply tY_linear|].
      apply (linear_comp (fun a => N.shiftl a 32)); [apply linear_shiftl|].
      apply (linear_comp lo31); [apply linear_land|apply lo32_linear].
Qed.

Lemma tpack_lt s : tiny_words s -> tpack s < 2^127.
Proof.
  destruct s as [[[s0 s1] s2] s3]. intros (H0 & H1 & H2 & H3). unfold tpack.
  change 127 with (32 + (32 + (32 + 31))). repeat (apply lo_hi_lt; [assumption|]).
  apply N.mod_lt. discriminate.
Qed.
Lemma tpack_inj s s' : tiny_words s -> tiny_words s' -> tpack s = tpack s' -> tiny127 s = tiny127 s'.
Proof.
  destruct s as [[[s0 s1] s2] s3], s' as [[[t0 t1] t2] t3]. intros (H0 & H1 & H2 & H3) (K0 & K1 & K2 & K3) E.
  unfold tpack in E.
  apply pair_inj in E; [|assumption..]. destruct E as [-> E].
  apply pair_inj in E; [|assumption..]. destruct E as [-> E].
  apply pair_inj in E; [|assumption..]. destruct E as [-> E]. unfold tiny127. now rewrite E.
Qed.
Lemma tpack_tiny127 s : tpack (tiny127 s) = tpack s.
Proof. destruct s as [[[s0 s1] s2] s3]. unfold tiny127, tpack. now rewrite N.mod_mod by discriminate. Qed.

Lemma tpack_next s : tiny_words s -> tpack (tinymt32_next s) = tT (tpack s).
Proof.
  destruct s as [[[s0 s1] s2] s3]. intros (H0 & H1 & H2 & H3).
  set (q := s0 mod 2^31). assert (Hq : q < 2^31) by (apply N.mod_lt; discriminate).
  set (v := tpack (s0, s1, s2, s3)).
  assert (E1 : lo32 v = s1) by (rewrite lo32_mod; unfold v, tpack; now apply mod_lo).
  assert (V1 : N.shiftr v 32 = s2 + 2^32 * (s3 + 2^32 * q)) by (unfold v, tpack; now apply shr_hi).
  assert (V2 : N.shiftr v 64 = s3 + 2^32 * q).
  { change 64 with (32 + 32). rewrite <- N.shiftr_shiftr, V1. now apply shr_hi. }
  assert (V3 : N.shiftr v 96 = q).
  { change 96 with (64 + 32). rewrite <- N.shiftr_shiftr, V2. now apply shr_hi. }
  assert (E2 : lo32 (N.shiftr v 32) = s2) by (rewrite lo32_mod, V1; now apply mod_lo).
  assert (E3 : lo32 (N.shiftr v 64) = s3) by (rewrite lo32_mod, V2; now apply mod_lo).
  set (x := N.lxor q (N.lxor s1 s2)). set (x' := N.lxor x (x * 2 mod 2^32)).
  assert (Hx : x < 2^32).
  { unfold x. apply (lxor_lt _ _ 32); [|now apply (lxor_lt _ _ 32)].
    apply N.lt_trans with (1 := Hq). reflexivity. }
  assert (Hx' : x' < 2^32) by (apply (lxor_lt _ _ 32); [exact Hx|apply N.mod_lt; discriminate]).
  assert (EX : tX v = x').
  { unfold tX, tsl. rewrite V3, E1, E2. fold x. rewrite lo32_mod, N.shiftl_mul_pow2. reflexivity. }
  set (y := N.lxor s3 (N.lxor (s3 / 2) x')).
  assert (EY : tY v = y).
  { unfold tY. rewrite EX, E3. unfold xr, y. rewrite N.shiftr_div_pow2, N.lxor_assoc. reflexivity. }
  assert (Hy : y < 2^32).
  { unfold y. change (s3 / 2) with (s3 / 2^1). rewrite <- N.shiftr_div_pow2.
    repeat first [assumption|apply (lxor_lt _ _ 32)|apply shiftr_lt]. }
  assert (HM1 : bitc MAT1 y < 2^32) by (unfold bitc; now destruct (N.odd y)).
  assert (HM2 : bitc MAT2 y < 2^32) by (unfold bitc; now destruct (N.odd y)).
  assert (Hl : lo32 (N.shiftl y 10) < 2^32) by (rewrite lo32_mod; apply N.mod_lt; discriminate).
  unfold tT. rewrite EX, EY. unfold tT2. rewrite E1, E2.
  rewrite (lxor_shiftl_add _ 32 y) by exact Hy.
  rewrite lxor_shiftl_add by (repeat first [assumption|apply (lxor_lt _ _ 32)]).
  rewrite lxor_shiftl_add by (repeat first [assumption|apply (lxor_lt _ _ 32)]).
  unfold tinymt32_next. cbv zeta. fold q x x' y. unfold tpack.
  rewrite lo31_mod, lo32_mod, N.shiftl_mul_pow2. reflexivity.
Qed.

Lemma tpack_unpack v : v < 2^127 -> exists s, tiny_words s /\ tiny127 s = s /\ tpack s = v.
Proof.
  intros H.
  set (x := v mod 2^32). set (v1 := v / 2^32). set (y := v1 mod 2^32). set (v2 := v1 / 2^32).
  set (z := v2 mod 2^32). set (w := v2 / 2^32).
  assert (E2 : v2 = z + 2^32 * w) by (unfold z, w; rewrite (N.div_mod v2 (2^32)) at 1 by discriminate; lia).
  assert (E1 : v1 = y + 2^32 * v2) by (unfold y, v2; rewrite (N.div_mod v1 (2^32)) at 1 by discriminate; lia).
  assert (E0 : v = x + 2^32 * v1) by (unfold x, v1; rewrite (N.div_mod v (2^32)) at 1 by discriminate; lia).
  assert (Hw : w < 2^31).
  { unfold w, v2, v1. rewrite !N.div_div by discriminate. apply N.div_lt_upper_bound; [discriminate|exact H]. }
  exists (w, x, y, z). split; [|split].
  - split; [apply N.lt_trans with (1 := Hw); reflexivity|].
    split; [apply N.mod_lt; discriminate|]. split; apply N.mod_lt; discriminate.
  - unfold tiny127. rewrite (N.mod_small w) by exact Hw. reflexivity.
  - unfold tpack. rewrite (N.mod_small w) by exact Hw. rewrite <- E2, <- E1, <- E0. reflexivity.
Qed.

Lemma tT_bound v : v < 2^127 -> tT v < 2^127.
Proof.
  intros H. destruct (tpack_unpack v H) as (s & Hs & _ & <-). rewrite <- tpack_next by exact Hs.
  apply tpack_lt. now apply next_words.
Qed.

Definition tP : N := 0xd8524022ed8dff4a8dcc50c798faba43.
Lemma tT_annih : forallb (fun c => c =? 0) (mat 127 (ev tT tP)) = true.
Proof. now vm_compute. Qed.
Lemma tT_period x : x < 2^127 -> x <> 0 ->
  N.iter (Npos M127) tT x = x /\ (forall d, N.iter d tT x = x -> N.divide (Npos M127) d) /\
  (forall y, y < 2^127 -> y <> 0 -> exists i, i < Npos M127 /\ N.iter i tT x = y).
Proof.
  apply (full_period tT tP 127 tT_linear 127 eq_refl M127) with (ps := [Zpos M127]) (inv := finv tP 127 M127).
  - now vm_compute.
  - exact tT_bound.
  - exact tT_annih.
  - now vm_compute.
  - intros p [<-|[]]. exact M127_prime.
  - now vm_compute.
  - now vm_compute.
Qed.

Lemma tpack_iter s n : tiny_words s -> tpack (N.iter n tinymt32_next s) = N.iter n tT (tpack s).
Proof.
  intros H. induction n as [|n IH] using N.peano_ind; [reflexivity|].
  rewrite !Niter_succ, <- IH. apply tpack_next. now apply (iter_ref NumPy s n).
Qed.
Lemma tpack_zero s : tiny_words s -> tpack s = 0 -> tiny127 s = (0, 0, 0, 0).
Proof.
  intros H E. change (0, 0, 0, 0) with (tiny127 (0, 0, 0, 0)). apply tpack_inj; [exact H|now vm_compute|exact E].
Qed.

(** From every state with a non-zero 127-bit part. *)
Theorem tiny_full_period m s : tiny_words s -> tiny127 s <> (0, 0, 0, 0) ->
  let after n := tiny_advance m (tiny_arr s) n in
  (exists t, tiny_words t /\ after (2^127 - 1) = tiny_arr t /\ tiny127 t = tiny127 s) /\
  (forall d t, tiny_words t -> after d = tiny_arr t -> tiny127 t = tiny127 s -> N.divide (2^127 - 1) d) /\
  (forall s', tiny_words s' -> tiny127 s' <> (0, 0, 0, 0) ->
     exists i t, i < 2^127 - 1 /\ tiny_words t /\ after i = tiny_arr t /\ tiny127 t = tiny127 s').
Proof.
  intros H H0. assert (P0 : tpack s <> 0) by (intros E; apply H0; now apply tpack_zero).
  destruct (tT_period (tpack s) (tpack_lt s H) P0) as (A & B & C).
  replace (2^127 - 1) with (Npos M127) by reflexivity.
  assert (St : forall n, tiny_advance m (tiny_arr s) n = tiny_arr (N.iter n tinymt32_next s) /\
                         tiny_words (N.iter n tinymt32_next s)).
  { intros n. apply iter_ref. exact H. }
  cbv zeta. split; [|split].
  - destruct (St (Npos M127)) as [S1 S2]. eexists. split; [exact S2|]. split; [exact S1|].
    apply tpack_inj; [exact S2|exact H|]. rewrite tpack_iter by exact H. exact A.
  - intros d t Ht E F. destruct (St d) as [S1 S2]. apply B. rewrite <- tpack_iter by exact H.
    rewrite S1 in E.
    assert (G : N.iter d tinymt32_next s = t).
    { clear - E. destruct (N.iter d tinymt32_next s) as [[[a b] c] e], t as [[[a' b'] c'] e'].
      unfold tiny_arr in E. injection E as -> -> -> ->. reflexivity. }
    rewrite G, <- (tpack_tiny127 t), F. apply tpack_tiny127.
  - intros s' Hs' Z. destruct (C (tpack s') (tpack_lt s' Hs')) as (i & Hi & E).
    + intros E. apply Z. apply tpack_zero; assumption.
    + destruct (St i) as [S1 S2]. exists i. eexists. split; [exact Hi|]. split; [exact S2|]. split; [exact S1|].
      apply tpack_inj; [exact S2|exact Hs'|]. rewrite tpack_iter by exact H. exact E.
Qed.
Lemma tiny_advance_next m st n : tiny_advance m st (N.of_nat n) = fst (tiny_calls m st (repeat TNext n)).
Proof.
  revert st. induction n as [|n IH]; intros st; [reflexivity|].
  cbn [repeat tiny_calls tiny_call]. replace (N.of_nat (S n)) with (N.of_nat n + 1) by lia.
  unfold tiny_next. specialize (IH (tiny_shuffle m st)).
  destruct (tiny_calls m (tiny_shuffle m st) (repeat TNext n)) as [st2 os]. cbn [fst] in *. rewrite <- IH.
  unfold tiny_advance. rewrite N.iter_add. reflexivity.
Qed.
