(** Lemmas about Model/Lcrng32.v. *)
From Coq Require Import NArith ZArith List Bool Lia Setoid Morphisms.
From Coq Require Import ZifyBool ZifyNat ZifyN.
From Verif Require Import Base.Word Base.WordLemmas Base.Cong Spec.LcrngSpec
  Model.Compat Model.Lcrng32 Proofs.LcgProofs Proofs.CompatProofs.
Import ListNotations.
Open Scope N_scope.

Local Notation M := 4294967296.

Lemma size_nat_div2 n : n <> 0 -> S (N.size_nat (N.div2 n)) = N.size_nat n.
Proof. destruct n as [|p]; [lia|]. intros _. destruct p; reflexivity. Qed.

Lemma next32_aff add mult seed : lcrng32_next add mult seed = aff M (add, mult) seed.
Proof. reflexivity. Qed.

Lemma table_next32_dbl e : jump_table32_next e = dbl M e.
Proof. destruct e; reflexivity. Qed.

Lemma next32_lt add mult seed : lcrng32_next add mult seed < M.
Proof. apply w32_lt. Qed.
Lemma iter_next32_lt add mult n seed : seed < M -> N.iter n (lcrng32_next add mult) seed < M.
Proof. intros. apply Niter_inv; auto. intros. apply next32_lt. Qed.

Lemma table32_nth n e i :
  nth_error (jump_table32_from n e) i = if (i <=? n)%nat then Some (dbl_n M i e) else None.
Proof.
  revert e i. induction n; intros e i; simpl.
  - destruct i; [reflexivity|]. destruct i; reflexivity.
  - destruct i; [reflexivity|]. simpl. rewrite IHn, table_next32_dbl.
    destruct (Nat.leb_spec i n); reflexivity.
Qed.

(** Halving the exponent. *)
Lemma lt_pow2_div2 adv n : adv < 2 ^ N.of_nat (S n) <-> N.div2 adv < 2 ^ N.of_nat n.
Proof.
  rewrite Nat2N.inj_succ, N.pow_succ_r'. pose proof (N.div2_odd adv).
  destruct (N.odd adv); cbn [N.b2n] in *; lia.
Qed.
Lemma mod_pow2_div2 adv n :
  adv mod 2 ^ N.of_nat (S n) = 2 * (N.div2 adv mod 2 ^ N.of_nat n) + N.b2n (N.odd adv).
Proof.
  rewrite Nat2N.inj_succ, N.pow_succ_r'.
  set (p := 2 ^ N.of_nat n). assert (Hp : p <> 0) by (apply N.pow_nonzero; lia).
  rewrite N.mod_mul_r by lia.
  rewrite <- N.div2_div. rewrite <- N.bit0_mod, N.bit0_odd. lia.
Qed.

Lemma iter_pow2_split {A} (f : A -> A) adv n x :
  N.iter (adv mod 2 ^ N.of_nat (S n)) f x =
  N.iter (N.div2 adv mod 2 ^ N.of_nat n) (fun y => f (f y)) (if N.odd adv then f x else x).
Proof.
  rewrite mod_pow2_div2, N.mul_comm, Niter_add, Niter_mul.
  destruct (N.odd adv); reflexivity.
Qed.

Lemma jump32_loop_ok n : forall fuel tbl e seed adv i,
  (N.size_nat adv <= fuel)%nat -> seed < M ->
  (forall j, nth_error tbl (i + j) = if (j <? n)%nat then Some (dbl_n M j e) else None) ->
  jump32_loop fuel tbl seed adv i =
  let s := N.iter (adv mod 2 ^ N.of_nat n) (aff M e) seed in
  (s, if adv <? 2 ^ N.of_nat n then Ok s else Raise IndexError).
Proof.
  induction n as [|n IH]; intros fuel tbl e seed adv i Hf Hs Ht.
  - change (2 ^ N.of_nat 0) with 1. rewrite N.mod_1_r. cbn [N.iter].
    revert adv i Hf Ht. induction fuel as [|fuel IHf]; intros adv i Hf Ht; cbn [jump32_loop].
    + destruct (N.eqb_spec adv 0) as [->|Hne].
      * rewrite w32_small by assumption. reflexivity.
      * pose proof (size_nat_div2 adv Hne). lia.
    + destruct (N.eqb_spec adv 0) as [->|Hne].
      * rewrite w32_small by assumption. reflexivity.
      * pose proof (size_nat_div2 adv Hne) as Hsz.
        destruct (N.ltb_spec adv 1); [lia|].
        destruct (N.odd adv) eqn:Ho.
        -- specialize (Ht 0%nat). rewrite Nat.add_0_r in Ht. simpl in Ht. now rewrite Ht.
        -- rewrite IHf.
           ++ pose proof (N.div2_odd adv) as E. rewrite Ho in E. cbn [N.b2n] in E.
              destruct (N.ltb_spec (N.div2 adv) 1); [lia|reflexivity].
           ++ lia.
           ++ intros j. specialize (Ht (S j)). rewrite Nat.add_succ_comm. rewrite Ht. reflexivity.
  - assert (Hm : forall y, aff M (dbl M e) y = aff M e (aff M e y)) by apply aff_dbl.
    assert (Htl : forall j, nth_error tbl (S i + j) =
              if (j <? n)%nat then Some (dbl_n M j (dbl M e)) else None).
    { intros j. specialize (Ht (S j)). rewrite Nat.add_succ_comm, Ht. cbn [dbl_n].
      destruct (Nat.ltb_spec j n), (Nat.ltb_spec (S j) (S n)); auto; lia. }
    assert (Hcmp : (adv <? 2 ^ N.of_nat (S n)) = (N.div2 adv <? 2 ^ N.of_nat n)).
    { pose proof (lt_pow2_div2 adv n). lia. }
    destruct fuel as [|fuel]; cbn [jump32_loop].
    + destruct (N.eqb_spec adv 0) as [->|Hne].
      * rewrite w32_small by assumption. cbn [N.iter]. rewrite N.mod_0_l by (apply N.pow_nonzero; lia).
        cbn [N.iter]. pose proof (N.pow_nonzero 2 (N.of_nat (S n))).
        destruct (N.ltb_spec 0 (2 ^ N.of_nat (S n))); [reflexivity|lia].
      * pose proof (size_nat_div2 adv Hne). lia.
    + destruct (N.eqb_spec adv 0) as [->|Hne].
      * rewrite w32_small by assumption. rewrite N.mod_0_l by (apply N.pow_nonzero; lia).
        cbn [N.iter]. pose proof (N.pow_nonzero 2 (N.of_nat (S n))).
        destruct (N.ltb_spec 0 (2 ^ N.of_nat (S n))); [reflexivity|lia].
      * pose proof (size_nat_div2 adv Hne) as Hsz.
        rewrite iter_pow2_split, Hcmp.
        rewrite <- (Niter_ext _ _ _ _ Hm).
        specialize (Ht 0%nat). rewrite Nat.add_0_r in Ht. cbn [dbl_n Nat.ltb Nat.leb] in Ht.
        destruct (N.odd adv) eqn:Ho.
        -- rewrite Ht. destruct e as [ea em]. rewrite (IH fuel tbl (dbl M (ea, em))); auto; [lia|].
           apply w32_lt.
        -- rewrite (IH fuel tbl (dbl M e)); auto; lia.
Qed.

Lemma jump_table32_ok add mult j :
  nth_error (jump_table32 add mult) (0 + j) =
  if (j <? 32)%nat then Some (dbl_n M j (add, mult)) else None.
Proof. unfold jump_table32. rewrite table32_nth. reflexivity. Qed.

Lemma lcrng32_jump_ok add mult seed adv : seed < M ->
  lcrng32_jump add mult seed adv =
  let s := N.iter (adv mod M) (lcrng32_next add mult) seed in
  (s, if adv <? M then Ok s else Raise IndexError).
Proof.
  intros Hs. unfold lcrng32_jump. rewrite (jump32_loop_ok 32 _ _ (add, mult)); auto.
  apply jump_table32_ok.
Qed.

(** ** const_jump *)
Lemma const_jump32_loop_ok n : forall fuel tbl e a m adv i,
  (N.size_nat adv <= fuel)%nat ->
  (forall j, nth_error tbl (i + j) = if (j <? n)%nat then Some (dbl_n M j e) else None) ->
  match const_jump32_loop fuel tbl a m adv i with
  | Ok c => adv < 2 ^ N.of_nat n /\
            forall x, cong M (x * snd c + fst c) (N.iter adv (aff M e) (aff M (a, m) x))
  | Raise ex => 2 ^ N.of_nat n <= adv /\ ex = IndexError
  end.
Proof.
  induction n as [|n IH]; intros fuel tbl e a m adv i Hf Ht.
  - change (2 ^ N.of_nat 0) with 1.
    destruct fuel as [|fuel]; cbn [const_jump32_loop].
    + destruct (N.eqb_spec adv 0) as [->|Hne].
      * split; [lia|]. intros x. symmetry. apply cong_mod'.
      * pose proof (size_nat_div2 adv Hne). lia.
    + destruct (N.eqb_spec adv 0) as [->|Hne].
      * split; [lia|]. intros x. symmetry. apply cong_mod'.
      * specialize (Ht 0%nat). rewrite Nat.add_0_r in Ht. simpl in Ht. rewrite Ht.
        split; [lia|reflexivity].
  - assert (Hm : forall y, aff M (dbl M e) y = aff M e (aff M e y)) by apply aff_dbl.
    assert (Htl : forall j, nth_error tbl (S i + j) =
              if (j <? n)%nat then Some (dbl_n M j (dbl M e)) else None).
    { intros j. specialize (Ht (S j)). rewrite Nat.add_succ_comm, Ht. cbn [dbl_n].
      destruct (Nat.ltb_spec j n), (Nat.ltb_spec (S j) (S n)); auto; lia. }
    pose proof (lt_pow2_div2 adv n) as Hcmp.
    pose proof (N.pow_nonzero 2 (N.of_nat (S n))) as Hnz.
    destruct fuel as [|fuel]; cbn [const_jump32_loop].
    + destruct (N.eqb_spec adv 0) as [->|Hne].
      * split; [lia|]. intros x. symmetry. apply cong_mod'.
      * pose proof (size_nat_div2 adv Hne). lia.
    + destruct (N.eqb_spec adv 0) as [->|Hne].
      * split; [lia|]. intros x. symmetry. apply cong_mod'.
      * pose proof (size_nat_div2 adv Hne) as Hsz.
        specialize (Ht 0%nat). rewrite Nat.add_0_r in Ht. cbn [dbl_n Nat.ltb Nat.leb] in Ht.
        rewrite Ht. destruct e as [ea em].
        destruct (N.odd adv) eqn:Ho.
        -- specialize (IH fuel tbl (dbl M (ea, em)) (w32 (w32 (a * em) + ea)) (w32 (m * em))
                         (N.div2 adv) (S i) ltac:(lia) Htl).
           destruct (const_jump32_loop fuel tbl _ _ _ _) as [c|ex].
           ++ destruct IH as [H1 H2]. split; [lia|]. intros x. rewrite H2.
              rewrite (iter_bits (aff M (ea, em)) adv), Ho.
              rewrite (Niter_ext _ _ _ _ Hm).
              replace (aff M (w32 (w32 (a * em) + ea), w32 (m * em)) x)
                with (aff M (ea, em) (aff M (a, m) x)); [reflexivity|].
              unfold aff, w32; cbn [fst snd].
              change (cong M ((x * m + a) mod M * em + ea)
                        (x * ((m * em) mod M) + ((a * em) mod M + ea) mod M)).
              rewrite !cong_mod'.
              replace ((x * m + a) * em + ea) with (x * (m * em) + (a * em + ea)) by ring.
              reflexivity.
           ++ destruct IH as [H1 H2]. split; [lia|assumption].
        -- specialize (IH fuel tbl (dbl M (ea, em)) a m (N.div2 adv) (S i) ltac:(lia) Htl).
           destruct (const_jump32_loop fuel tbl _ _ _ _) as [c|ex].
           ++ destruct IH as [H1 H2]. split; [lia|]. intros x. rewrite H2.
              rewrite (iter_bits (aff M (ea, em)) adv), Ho.
              rewrite (Niter_ext _ _ _ _ Hm). reflexivity.
           ++ destruct IH as [H1 H2]. split; [lia|assumption].
Qed.

Lemma lcrng32_const_jump_ok add mult adv :
  (adv < M -> exists f, lcrng32_const_jump add mult adv = Ok f /\
     forall seed, seed < M -> f seed = N.iter adv (lcrng32_next add mult) seed) /\
  (M <= adv -> lcrng32_const_jump add mult adv = Raise IndexError).
Proof.
  unfold lcrng32_const_jump.
  pose proof (const_jump32_loop_ok 32 (N.size_nat adv) (jump_table32 add mult) (add, mult) 0 1 adv 0
                ltac:(lia) (jump_table32_ok add mult)) as H.
  change (2 ^ N.of_nat 32) with M in H.
  destruct (const_jump32_loop _ _ _ _ _ _) as [c|ex]; cbn [rmap].
  - destruct H as [H1 H2]. split; [|lia]. intros _. eexists; split; [reflexivity|].
    intros seed Hs. unfold jump_func32, w32. rewrite (H2 seed).
    assert (E : aff M (0, 1) seed = seed).
    { unfold aff; cbn [fst snd]. rewrite N.mul_1_r, N.add_0_r. now apply N.mod_small. }
    rewrite E. apply N.mod_small. now apply iter_next32_lt.
  - destruct H as [H1 ->]. split; [lia|reflexivity].
Qed.

Lemma lcrng32_advance_ok add mult seed adv :
  lcrng32_advance add mult seed adv = N.iter (adv mod M) (lcrng32_next add mult) seed.
Proof. reflexivity. Qed.

Lemma lcrng32_next_spec add mult seed : lcrng32_next add mult seed = lcg 32 mult add seed.
Proof. unfold lcrng32_next, lcg, w32. now rewrite N.mul_comm. Qed.

Lemma lcrng32_steps_spec add mult n seed :
  N.iter n (lcrng32_next add mult) seed = lcg_steps 32 mult add n seed.
Proof. apply Niter_ext. intros; apply lcrng32_next_spec. Qed.

(** ** reverse *)
Lemma N_odd_Z n : Z.odd (Z.of_N n) = N.odd n.
Proof. destruct n as [|p]; [reflexivity|]. destruct p; reflexivity. Qed.

Lemma lcrng32_reverse_consts minor add mult :
  (N.odd mult = true -> exists ra rm, lcrng32_consts minor add mult true = Ok (ra, rm) /\
     ra < M /\ rm < M /\ cong M (mult * rm) 1 /\ cong M (ra + add * rm) 0) /\
  (N.odd mult = false -> lcrng32_consts minor add mult true = Raise ValueError).
Proof.
  unfold lcrng32_consts.
  destruct (mod_inv_ok minor (Z.of_N mult) 4294967296 ltac:(lia) ltac:(lia)) as [A B].
  split; intros Ho.
  - destruct A as (r & -> & Hr & E).
    { change 4294967296%Z with (2 ^ 32)%Z. apply gcd_pow2_odd; [lia|]. now rewrite N_odd_Z. }
    cbn [rmap]. eexists _, _. split; [reflexivity|].
    assert (Hw : w32 (Z.to_N r) = Z.to_N r) by (apply w32_small; lia).
    rewrite Hw. split; [apply w32_lt|]. split; [lia|]. split.
    + unfold cong. change (1 mod M) with 1.
      apply N2Z.inj. rewrite N2Z.inj_mod, N2Z.inj_mul, Z2N.id by lia. exact E.
    + unfold neg32, sub32, w32. rewrite !cong_mod'.
      rewrite N.add_0_l.
      assert (HM : cong M (M - add mod M + add) 0).
      { rewrite <- (cong_mod' M add) at 2.
        replace (M - add mod M + add mod M) with M by (pose proof (N.mod_lt add M ltac:(lia)); lia).
        reflexivity. }
      replace ((M - add mod M) * Z.to_N r + add * Z.to_N r) with ((M - add mod M + add) * Z.to_N r) by ring.
      rewrite HM. reflexivity.
  - rewrite B; [reflexivity|].
    change 4294967296%Z with (2 ^ 32)%Z. apply gcd_pow2_even; [lia|]. now rewrite N_odd_Z.
Qed.

Lemma lcrng32_reverse_ok minor add mult : N.odd mult = true ->
  exists fa fm ra rm,
    lcrng32_consts minor add mult false = Ok (fa, fm) /\
    lcrng32_consts minor add mult true = Ok (ra, rm) /\
    (forall seed, seed < M -> lcrng32_next ra rm (lcrng32_next fa fm seed) = seed) /\
    (forall seed, seed < M -> lcrng32_next fa fm (lcrng32_next ra rm seed) = seed).
Proof.
  intros Ho. destruct (proj1 (lcrng32_reverse_consts minor add mult) Ho)
    as (ra & rm & E & Hra & Hrm & Hm & Ha).
  exists (w32 add), (w32 mult), ra, rm. split; [reflexivity|]. split; [assumption|].
  assert (Hm' : cong M (w32 mult * rm) 1) by (unfold w32; rewrite cong_mod'; assumption).
  assert (Ha' : cong M (ra + w32 add * rm) 0) by (unfold w32; rewrite cong_mod'; assumption).
  split; intros seed Hs; rewrite !next32_aff.
  - now apply aff_inverse.
  - apply aff_inverse; [lia| | |assumption].
    + rewrite N.mul_comm. assumption.
    + transitivity (w32 add * (w32 mult * rm) + ra * w32 mult).
      { rewrite Hm'. now rewrite N.mul_1_r. }
      replace (w32 add * (w32 mult * rm) + ra * w32 mult) with ((ra + w32 add * rm) * w32 mult) by ring.
      rewrite Ha'. reflexivity.
Qed.

Lemma iter_inverse32 (f g : N -> N) n seed :
  (forall s, s < M -> f s < M) -> (forall s, s < M -> g (f s) = s) -> seed < M ->
  N.iter n g (N.iter n f seed) = seed.
Proof.
  intros Hf Hg. revert seed. induction n using N.peano_ind; intros seed Hs; [reflexivity|].
  rewrite (Niter_succ_r g), Niter_succ, Hg; [now apply IHn|].
  apply Niter_inv; auto.
Qed.

Lemma lcrng32_full_period add mult :
  (exists q, mult = 4 * q + 1) -> (exists q, add = 2 * q + 1) ->
  full_period 32 (lcrng32_next add mult).
Proof. intros Hm Ha. exact (f_full_period mult add Hm Ha 32). Qed.

(** ** bounded rands *)
Lemma next_u16_range add mult seed : snd (lcrng32_next_u16 add mult seed) < 65536.
Proof. apply w16_lt. Qed.

Lemma next_u16_ok add mult seed :
  lcrng32_next_u16 add mult seed =
  (lcrng32_next add mult seed, lcrng32_next add mult seed / 65536).
Proof.
  unfold lcrng32_next_u16. f_equal.
  pose proof (next32_lt add mult seed) as H.
  rewrite w32_small, N.shiftr_div_pow2 by assumption. change (2 ^ 16) with 65536.
  apply w16_small. lia.
Qed.
