(** Final lemmas for the LCRNG properties C01-C10. *)
From Coq Require Import NArith ZArith List Bool Lia Setoid Morphisms.
From Coq Require Import ZifyBool ZifyNat ZifyN.
From Verif Require Import Base.Word Base.WordLemmas Base.Cong Spec.LcrngSpec
  Model.Compat Model.Lcrng32 Model.Lcrng64 Model.LcrngClasses
  Proofs.LcgProofs Proofs.CompatProofs Proofs.Lcrng32Proofs Proofs.Lcrng64Proofs.
Import ListNotations.
Open Scope N_scope.

Lemma c01_32 add mult seed adv : seed < 2^32 -> adv < 2^32 ->
  lcrng32_jump add mult seed adv
    = (lcg_steps 32 mult add adv seed, Ok (lcg_steps 32 mult add adv seed)) /\
  N.iter adv (lcrng32_next add mult) seed = lcg_steps 32 mult add adv seed /\
  lcrng32_advance add mult seed adv = lcg_steps 32 mult add adv seed.
Proof.
  change (2^32) with 4294967296. intros Hs Ha.
  rewrite lcrng32_jump_ok, lcrng32_advance_ok, (N.mod_small adv) by assumption.
  cbv zeta. rewrite !lcrng32_steps_spec.
  destruct (N.ltb_spec adv 4294967296); [auto|lia].
Qed.
Lemma c01_64 add mult seed adv : seed < 2^64 -> adv < 2^64 ->
  lcrng64_jump add mult seed adv
    = (lcg_steps 64 mult add adv seed, Ok (lcg_steps 64 mult add adv seed)) /\
  N.iter adv (lcrng64_next add mult) seed = lcg_steps 64 mult add adv seed /\
  lcrng64_advance add mult seed adv = lcg_steps 64 mult add adv seed.
Proof.
  change (2^64) with 18446744073709551616. intros Hs Ha.
  rewrite lcrng64_jump_ok, lcrng64_advance_ok, (N.mod_small adv) by assumption.
  cbv zeta. rewrite !lcrng64_steps_spec.
  destruct (N.ltb_spec adv 18446744073709551616); [auto|lia].
Qed.

Lemma c02_32 add mult adv : adv < 2^32 ->
  exists f, lcrng32_const_jump add mult adv = Ok f /\
    forall seed, seed < 2^32 ->
      f seed = lcg_steps 32 mult add adv seed /\
      lcrng32_jump add mult seed adv = (f seed, Ok (f seed)).
Proof.
  intros Ha. destruct (proj1 (lcrng32_const_jump_ok add mult adv) Ha) as (f & E & H).
  exists f. split; [assumption|]. intros seed Hs.
  rewrite H, lcrng32_steps_spec by assumption. split; [reflexivity|].
  now apply c01_32.
Qed.
Lemma c02_64 add mult adv : adv < 2^64 ->
  exists f, lcrng64_const_jump add mult adv = Ok f /\
    forall seed, seed < 2^64 ->
      f seed = lcg_steps 64 mult add adv seed /\
      lcrng64_jump add mult seed adv = (f seed, Ok (f seed)).
Proof.
  intros Ha. destruct (proj1 (lcrng64_const_jump_ok add mult adv) Ha) as (f & E & H).
  exists f. split; [assumption|]. intros seed Hs.
  rewrite H, lcrng64_steps_spec by assumption. split; [reflexivity|].
  now apply c01_64.
Qed.

Lemma c03_32 minor add mult : N.odd mult = true ->
  exists fa fm ra rm,
    lcrng32_consts minor add mult false = Ok (fa, fm) /\
    lcrng32_consts minor add mult true = Ok (ra, rm) /\
    forall seed, seed < 2^32 ->
      lcrng32_next fa fm seed = lcg 32 mult add seed /\
      lcrng32_next ra rm (lcrng32_next fa fm seed) = seed /\
      lcrng32_next fa fm (lcrng32_next ra rm seed) = seed /\
      forall n, n < 2^32 ->
        lcrng32_jump ra rm (fst (lcrng32_jump fa fm seed n)) n = (seed, Ok seed) /\
        lcrng32_jump fa fm (fst (lcrng32_jump ra rm seed n)) n = (seed, Ok seed).
Proof.
  intros Ho. destruct (lcrng32_reverse_ok minor add mult Ho) as (fa & fm & ra & rm & E1 & E2 & H1 & H2).
  exists fa, fm, ra, rm. do 2 (split; [assumption|]). intros seed Hs.
  split.
  { inversion E1. unfold lcrng32_next, lcg, w32. change (2^32) with 4294967296.
    apply (f_equal (fun x => x)). change (cong 4294967296 (seed * (mult mod 4294967296) + add mod 4294967296) (mult * seed + add)).
    rewrite !cong_mod'. now rewrite N.mul_comm. }
  split; [now apply H1|]. split; [now apply H2|].
  intros n Hn. change (2^32) with 4294967296 in Hs, Hn.
  split.
  - rewrite (lcrng32_jump_ok fa fm) by assumption. cbv zeta. cbn [fst].
    rewrite N.mod_small by assumption.
    rewrite lcrng32_jump_ok by now apply iter_next32_lt. cbv zeta.
    rewrite N.mod_small by assumption.
    rewrite iter_inverse32 by (auto; intros; apply next32_lt).
    destruct (N.ltb_spec n 4294967296); [reflexivity|lia].
  - rewrite (lcrng32_jump_ok ra rm) by assumption. cbv zeta. cbn [fst].
    rewrite N.mod_small by assumption.
    rewrite lcrng32_jump_ok by now apply iter_next32_lt. cbv zeta.
    rewrite N.mod_small by assumption.
    rewrite iter_inverse32 by (auto; intros; apply next32_lt).
    destruct (N.ltb_spec n 4294967296); [reflexivity|lia].
Qed.
Lemma c03_64 minor add mult : N.odd mult = true ->
  exists fa fm ra rm,
    lcrng64_consts minor add mult false = Ok (fa, fm) /\
    lcrng64_consts minor add mult true = Ok (ra, rm) /\
    forall seed, seed < 2^64 ->
      lcrng64_next fa fm seed = lcg 64 mult add seed /\
      lcrng64_next ra rm (lcrng64_next fa fm seed) = seed /\
      lcrng64_next fa fm (lcrng64_next ra rm seed) = seed /\
      forall n, n < 2^64 ->
        lcrng64_jump ra rm (fst (lcrng64_jump fa fm seed n)) n = (seed, Ok seed) /\
        lcrng64_jump fa fm (fst (lcrng64_jump ra rm seed n)) n = (seed, Ok seed).
Proof.
  intros Ho. destruct (lcrng64_reverse_ok minor add mult Ho) as (fa & fm & ra & rm & E1 & E2 & H1 & H2).
  exists fa, fm, ra, rm. do 2 (split; [assumption|]). intros seed Hs.
  split.
  { inversion E1. unfold lcrng64_next, lcg, w64. change (2^64) with 18446744073709551616.
    change (cong 18446744073709551616 (seed * (mult mod 18446744073709551616) + add mod 18446744073709551616) (mult * seed + add)).
    rewrite !cong_mod'. now rewrite N.mul_comm. }
  split; [now apply H1|]. split; [now apply H2|].
  intros n Hn. change (2^64) with 18446744073709551616 in Hs, Hn.
  split.
  - rewrite (lcrng64_jump_ok fa fm) by assumption. cbv zeta. cbn [fst].
    rewrite N.mod_small by assumption.
    rewrite lcrng64_jump_ok by now apply iter_next64_lt. cbv zeta.
    rewrite N.mod_small by assumption.
    rewrite iter_inverse64 by (auto; intros; apply next64_lt).
    destruct (N.ltb_spec n 18446744073709551616); [reflexivity|lia].
  - rewrite (lcrng64_jump_ok ra rm) by assumption. cbv zeta. cbn [fst].
    rewrite N.mod_small by assumption.
    rewrite lcrng64_jump_ok by now apply iter_next64_lt. cbv zeta.
    rewrite N.mod_small by assumption.
    rewrite iter_inverse64 by (auto; intros; apply next64_lt).
    destruct (N.ltb_spec n 18446744073709551616); [reflexivity|lia].
Qed.

Lemma c03_even32 minor add mult : N.odd mult = false ->
  lcrng32_consts minor add mult true = Raise ValueError.
Proof. apply lcrng32_reverse_consts. Qed.
Lemma c03_even64 minor add mult : N.odd mult = false ->
  lcrng64_consts minor add mult true = Raise ValueError.
Proof. apply lcrng64_reverse_consts. Qed.

Lemma c04_32 add mult seed adv : seed < 2^32 -> 2^32 <= adv ->
  lcrng32_jump add mult seed adv = (lcg_steps 32 mult add (adv mod 2^32) seed, Raise IndexError) /\
  lcrng32_const_jump add mult adv = Raise IndexError /\
  lcrng32_advance add mult seed adv = lcg_steps 32 mult add (adv mod 2^32) seed.
Proof.
  change (2^32) with 4294967296. intros Hs Ha.
  rewrite lcrng32_jump_ok, lcrng32_advance_ok by assumption.
  cbv zeta. rewrite !lcrng32_steps_spec.
  rewrite (proj2 (lcrng32_const_jump_ok add mult adv) Ha).
  destruct (N.ltb_spec adv 4294967296); [lia|auto].
Qed.
Lemma c04_64 add mult seed adv : seed < 2^64 -> 2^64 <= adv ->
  lcrng64_jump add mult seed adv = (lcg_steps 64 mult add (adv mod 2^64) seed, Raise IndexError) /\
  lcrng64_const_jump add mult adv = Raise IndexError /\
  lcrng64_advance add mult seed adv = lcg_steps 64 mult add (adv mod 2^64) seed.
Proof.
  change (2^64) with 18446744073709551616. intros Hs Ha.
  rewrite lcrng64_jump_ok, lcrng64_advance_ok by assumption.
  cbv zeta. rewrite !lcrng64_steps_spec.
  rewrite (proj2 (lcrng64_const_jump_ok add mult adv) Ha).
  destruct (N.ltb_spec adv 18446744073709551616); [lia|auto].
Qed.

(** Constants of the published classes satisfy the Hull-Dobell conditions. *)
Definition hd_ok (r : res (N * N)) : bool :=
  match r with Ok (a, m) => N.odd a && (m mod 4 =? 1) | Raise _ => false end.

Lemma hd_ok_params a m : N.odd a && (m mod 4 =? 1) = true ->
  (exists q, m = 4 * q + 1) /\ (exists q, a = 2 * q + 1).
Proof.
  intros H. apply andb_prop in H as [H1 H2]. apply N.eqb_eq in H2. split.
  - exists (m / 4). lia.
  - exists (N.div2 a). rewrite (N.div2_odd a) at 1. rewrite H1. reflexivity.
Qed.

Lemma c05_32 minor p : In p published32 ->
  exists a m, consts_of32 minor p = Ok (a, m) /\ full_period 32 (lcrng32_next a m).
Proof.
  intros Hp.
  assert (H : hd_ok (consts_of32 minor p) = true).
  { unfold consts_of32, lcrng32_consts, mod_inv. destruct (minor <? 8);
    repeat (destruct Hp as [<-|Hp]; [vm_compute; reflexivity|]); destruct Hp. }
  destruct (consts_of32 minor p) as [[a m]|]; [|discriminate].
  exists a, m. split; [reflexivity|]. cbn [hd_ok] in H.
  apply hd_ok_params in H as [H1 H2]. now apply lcrng32_full_period.
Qed.
Lemma c05_64 minor p : In p published64 ->
  exists a m, consts_of64 minor p = Ok (a, m) /\ full_period 64 (lcrng64_next a m).
Proof.
  intros Hp.
  assert (H : hd_ok (consts_of64 minor p) = true).
  { unfold consts_of64, lcrng64_consts, mod_inv. destruct (minor <? 8);
    repeat (destruct Hp as [<-|Hp]; [vm_compute; reflexivity|]); destruct Hp. }
  destruct (consts_of64 minor p) as [[a m]|]; [|discriminate].
  exists a, m. split; [reflexivity|]. cbn [hd_ok] in H.
  apply hd_ok_params in H as [H1 H2]. now apply lcrng64_full_period.
Qed.

(** ** bounded rands *)
Lemma c06_modulo m add mult seed max : 1 <= max < 2^16 ->
  let s := lcg 32 mult add seed in
  exists v, lcrng32_next_rand m D32_MODULO add mult seed max = (s, Ok v) /\
            v = (s / 2^16) mod max /\ v < max.
Proof.
  change (2^16) with 65536. intros Hm. cbv zeta. unfold lcrng32_next_rand.
  rewrite next_u16_ok, lcrng32_next_spec.
  assert (Hs : lcg 32 mult add seed < 4294967296) by (apply N.mod_lt; discriminate).
  rewrite !w16_small by lia. unfold umod. destruct (N.eqb_spec max 0); [lia|].
  eexists. split; [reflexivity|]. split; [reflexivity|]. apply N.mod_lt; lia.
Qed.

Lemma recip_lt r max : r < 65536 -> 1 <= max -> r / (65535 / max + 1) < max.
Proof.
  intros Hr Hm. apply N.div_lt_upper_bound; [lia|].
  pose proof (N.div_mod 65535 max ltac:(lia)). pose proof (N.mod_lt 65535 max ltac:(lia)). nia.
Qed.

Lemma c06_reciprocal m add mult seed max : 2 <= max < 2^16 ->
  let s := lcg 32 mult add seed in
  exists v, lcrng32_next_rand m D32_RECIPROCAL_DIVISION add mult seed max = (s, Ok v) /\
            v = (s / 2^16) / (65535 / max + 1) /\ v < max.
Proof.
  change (2^16) with 65536. intros Hm. cbv zeta. unfold lcrng32_next_rand.
  rewrite next_u16_ok, lcrng32_next_spec.
  assert (Hs : lcg 32 mult add seed < 4294967296) by (apply N.mod_lt; discriminate).
  rewrite (w16_small max), (w16_small (_ / 65536)) by lia.
  unfold udiv at 1. destruct (N.eqb_spec max 0); [lia|]. cbn [rbind].
  assert (Hq : 65535 / max + 1 < 65536).
  { assert (65535 / max < 65535) by (apply N.div_lt; lia). lia. }
  rewrite w16_small by assumption.
  unfold udiv. destruct (N.eqb_spec (65535 / max + 1) 0); [lia|].
  eexists. split; [reflexivity|]. split; [reflexivity|]. apply recip_lt; lia.
Qed.

Lemma c06_none m add mult seed max :
  lcrng32_next_rand m D32_NONE add mult seed max = (seed, Raise NotImplementedError).
Proof. reflexivity. Qed.

Lemma c06_mulshift add mult seed max : 1 <= max <= 2^32 ->
  let s := lcg 64 mult add seed in
  exists v, lcrng64_next_rand D64_MULTIPLICATION_SHIFT add mult seed max = (s, Ok v) /\
            v = (s / 2^32) * max / 2^32 /\ v < max.
Proof.
  change (2^32) with 4294967296. intros Hm. cbv zeta. unfold lcrng64_next_rand.
  rewrite next_u32_ok, lcrng64_next_spec.
  assert (Hs : lcg 64 mult add seed < 18446744073709551616) by (apply N.mod_lt; discriminate).
  set (r := lcg 64 mult add seed / 4294967296).
  assert (Hr : r < 4294967296) by (unfold r; lia).
  rewrite (w64_small max), (w64_small r) by lia.
  assert (Hp : r * max < 18446744073709551616) by nia.
  rewrite w64_small by assumption. rewrite N.shiftr_div_pow2. change (2^32) with 4294967296.
  assert (Hv : r * max / 4294967296 < max) by (apply N.div_lt_upper_bound; nia).
  rewrite w32_small by lia.
  eexists. split; [reflexivity|]. split; [reflexivity|]. assumption.
Qed.
Lemma c06_none64 add mult seed max :
  lcrng64_next_rand D64_NONE add mult seed max = (seed, Raise NotImplementedError).
Proof. reflexivity. Qed.

Lemma c07_32 m d add mult max :
  match lcrng32_const_rand m d add mult max with
  | Ok f => forall seed, f seed = lcrng32_next_rand m d add mult seed max
  | Raise e => forall seed, lcrng32_next_rand m d add mult seed max = (seed, Raise e)
  end.
Proof. destruct d; cbn; intros seed; reflexivity. Qed.
Lemma c07_64 d add mult max :
  match lcrng64_const_rand d add mult max with
  | Ok f => forall seed, f seed = lcrng64_next_rand d add mult seed max
  | Raise e => forall seed, lcrng64_next_rand d add mult seed max = (seed, Raise e)
  end.
Proof. destruct d; cbn; intros seed; reflexivity. Qed.

(** Every 32-bit value is the next seed of some seed. *)
Lemma next32_surj add mult t : N.odd mult = true -> t < 4294967296 ->
  exists seed, seed < 4294967296 /\ lcg 32 mult add seed = t.
Proof.
  intros Ho Ht. destruct (lcrng32_reverse_ok 8 add mult Ho) as (fa & fm & ra & rm & E1 & E2 & H1 & H2).
  exists (lcrng32_next ra rm t). split; [apply next32_lt|].
  rewrite <- (H2 t Ht) at 2. inversion E1.
  unfold lcrng32_next at 2, lcg, w32. change (2^32) with 4294967296.
  change (cong 4294967296 (mult * lcrng32_next ra rm t + add)
            (lcrng32_next ra rm t * (mult mod 4294967296) + add mod 4294967296)).
  rewrite !cong_mod'. now rewrite N.mul_comm.
Qed.
Lemma next64_surj add mult t : N.odd mult = true -> t < 18446744073709551616 ->
  exists seed, seed < 18446744073709551616 /\ lcg 64 mult add seed = t.
Proof.
  intros Ho Ht. destruct (lcrng64_reverse_ok 8 add mult Ho) as (fa & fm & ra & rm & E1 & E2 & H1 & H2).
  exists (lcrng64_next ra rm t). split; [apply next64_lt|].
  rewrite <- (H2 t Ht) at 2. inversion E1.
  unfold lcrng64_next at 2, lcg, w64. change (2^64) with 18446744073709551616.
  change (cong 18446744073709551616 (mult * lcrng64_next ra rm t + add)
            (lcrng64_next ra rm t * (mult mod 18446744073709551616) + add mod 18446744073709551616)).
  rewrite !cong_mod'. now rewrite N.mul_comm.
Qed.

Lemma c08_reciprocal m add mult max t : N.odd mult = true -> 2 <= max <= 256 -> t < max ->
  exists seed, seed < 2^32 /\
    snd (lcrng32_next_rand m D32_RECIPROCAL_DIVISION add mult seed max) = Ok t.
Proof.
  intros Ho Hm Ht. change (2^32) with 4294967296.
  set (k := 65535 / max + 1).
  assert (Hk : t * k < 65536).
  { unfold k. pose proof (N.div_mod 65535 max ltac:(lia)). nia. }
  destruct (next32_surj add mult (t * k * 65536) Ho) as (seed & Hs & E); [lia|].
  exists seed. split; [assumption|].
  destruct (c06_reciprocal m add mult seed max) as (v & -> & Ev & _).
  { change (2^16) with 65536. lia. }
  cbn [snd]. f_equal. rewrite Ev, E. change (2^16) with 65536.
  rewrite N.div_mul by lia. fold k. rewrite N.div_mul by (unfold k; lia). reflexivity.
Qed.

Lemma c08_reciprocal_gap m add mult :
  forall seed, snd (lcrng32_next_rand m D32_RECIPROCAL_DIVISION add mult seed 257) <> Ok 256.
Proof.
  intros seed H.
  destruct (c06_reciprocal m add mult seed 257) as (v & E & Ev & _).
  { change (2^16) with 65536. lia. }
  rewrite E in H. cbn [snd] in H. injection H as ->.
  assert (Hs : lcg 32 mult add seed < 4294967296) by (apply N.mod_lt; discriminate).
  change (65535 / 257 + 1) with 256 in Ev. change (2^16) with 65536 in Ev. lia.
Qed.

Lemma c08_mulshift add mult max t : N.odd mult = true -> 1 <= max <= 2^32 -> t < max ->
  exists seed, seed < 2^64 /\
    snd (lcrng64_next_rand D64_MULTIPLICATION_SHIFT add mult seed max) = Ok t.
Proof.
  intros Ho Hm Ht. change (2^64) with 18446744073709551616. change (2^32) with 4294967296 in Hm.
  set (r := (t * 4294967296 + max - 1) / max).
  assert (Hr1 : t * 4294967296 <= r * max < t * 4294967296 + max).
  { unfold r. pose proof (N.div_mod (t * 4294967296 + max - 1) max ltac:(lia)).
    pose proof (N.mod_lt (t * 4294967296 + max - 1) max ltac:(lia)). nia. }
  assert (Hr : r < 4294967296) by nia.
  destruct (next64_surj add mult (r * 4294967296) Ho) as (seed & Hs & E); [nia|].
  exists seed. split; [assumption|].
  destruct (c06_mulshift add mult seed max) as (v & -> & Ev & _).
  { change (2^32) with 4294967296. lia. }
  cbn [snd]. f_equal. rewrite Ev, E. change (2^32) with 4294967296.
  rewrite N.div_mul by lia. symmetry. apply N.div_unique with (r := r * max - t * 4294967296); lia.
Qed.

Lemma c08_modulo m add mult max t : N.odd mult = true -> 1 <= max < 2^16 -> t < max ->
  exists seed, seed < 2^32 /\
    snd (lcrng32_next_rand m D32_MODULO add mult seed max) = Ok t.
Proof.
  intros Ho Hm Ht. change (2^32) with 4294967296. change (2^16) with 65536 in Hm.
  destruct (next32_surj add mult (t * 65536) Ho) as (seed & Hs & E); [lia|].
  exists seed. split; [assumption|].
  destruct (c06_modulo m add mult seed max) as (v & -> & Ev & _).
  { change (2^16) with 65536. lia. }
  cbn [snd]. f_equal. rewrite Ev, E. change (2^16) with 65536.
  rewrite N.div_mul by lia. apply N.mod_small. assumption.
Qed.

Lemma c09_table add mult seed :
  let s := lcg 32 mult add seed in
  lcrng32_next_rand NumPy D32_MODULO add mult seed 1 = (s, Ok 0) /\
  lcrng32_next_rand Numba D32_MODULO add mult seed 1 = (s, Ok 0) /\
  lcrng32_next_rand NumPy D32_MODULO add mult seed 0 = (s, Ok 0) /\
  lcrng32_next_rand Numba D32_MODULO add mult seed 0 = (s, Raise ZeroDivisionError) /\
  lcrng32_next_rand NumPy D32_RECIPROCAL_DIVISION add mult seed 1 = (s, Ok 0) /\
  lcrng32_next_rand Numba D32_RECIPROCAL_DIVISION add mult seed 1 = (s, Raise ZeroDivisionError) /\
  lcrng32_next_rand NumPy D32_RECIPROCAL_DIVISION add mult seed 0 = (s, Ok (s / 2^16)) /\
  lcrng32_next_rand Numba D32_RECIPROCAL_DIVISION add mult seed 0 = (s, Raise ZeroDivisionError).
Proof.
  cbv zeta. unfold lcrng32_next_rand. rewrite next_u16_ok, lcrng32_next_spec.
  assert (Hs : lcg 32 mult add seed < 4294967296) by (apply N.mod_lt; discriminate).
  rewrite (w16_small (_ / 65536)) by lia. change (2^16) with 65536.
  change (w16 1) with 1. change (w16 0) with 0. unfold umod, udiv.
  change (1 =? 0) with false. change (0 =? 0) with true. cbv iota.
  change (65535 / 1) with 65535. cbn [rbind].
  change (w16 (65535 + 1)) with 0. change (w16 (0 + 1)) with 1.
  change (1 =? 0) with false. change (0 =? 0) with true. cbv iota.
  rewrite N.mod_1_r, N.div_1_r. repeat split; reflexivity.
Qed.

Lemma c09_mulshift_zero add mult seed :
  lcrng64_next_rand D64_MULTIPLICATION_SHIFT add mult seed 0 = (lcg 64 mult add seed, Ok 0) /\
  lcrng64_next_rand D64_MULTIPLICATION_SHIFT add mult seed 1 = (lcg 64 mult add seed, Ok 0).
Proof.
  split.
  - unfold lcrng64_next_rand. rewrite next_u32_ok, lcrng64_next_spec.
    change (w64 0) with 0. rewrite N.mul_0_r. reflexivity.
  - destruct (c06_mulshift add mult seed 1) as (v & -> & _ & Hv); [change (2^32) with 4294967296; lia|].
    repeat f_equal. lia.
Qed.
