(** Lemmas about Model/Lcrng64.v. *)
From Coq Require Import NArith ZArith List Bool Lia Setoid Morphisms.
From Coq Require Import ZifyBool ZifyNat ZifyN.
From Verif Require Import Base.Word Base.WordLemmas Base.Cong Spec.LcrngSpec
  Model.Compat Model.Lcrng64 Proofs.LcgProofs Proofs.CompatProofs Proofs.Lcrng32Proofs.
Import ListNotations.
Open Scope N_scope.

Local Notation M := 18446744073709551616.


Lemma next64_aff add mult seed : lcrng64_next add mult seed = aff M (add, mult) seed.
Proof. reflexivity. Qed.

Lemma table_next64_dbl e : jump_table64_next e = dbl M e.
Proof. destruct e; reflexivity. Qed.

Lemma next64_lt add mult seed : lcrng64_next add mult seed < M.
Proof. apply w64_lt. Qed.
Lemma iter_next64_lt add mult n seed : seed < M -> N.iter n (lcrng64_next add mult) seed < M.
Proof. intros. apply Niter_inv; auto. intros. apply next64_lt. Qed.

Lemma table64_nth n e i :
  nth_error (jump_table64_from n e) i = if (i <=? n)%nat then Some (dbl_n M i e) else None.
Proof.
  revert e i. induction n; intros e i; simpl.
  - destruct i; [reflexivity|]. destruct i; reflexivity.
  - destruct i; [reflexivity|]. simpl. rewrite IHn, table_next64_dbl.
    destruct (Nat.leb_spec i n); reflexivity.
Qed.



Lemma jump64_loop_ok n : forall fuel tbl e seed adv i,
  (N.size_nat adv <= fuel)%nat -> seed < M ->
  (forall j, nth_error tbl (i + j) = if (j <? n)%nat then Some (dbl_n M j e) else None) ->
  jump64_loop fuel tbl seed adv i =
  let s := N.iter (adv mod 2 ^ N.of_nat n) (aff M e) seed in
  (s, if adv <? 2 ^ N.of_nat n then Ok s else Raise IndexError).
Proof.
  induction n as [|n IH]; intros fuel tbl e seed adv i Hf Hs Ht.
  - change (2 ^ N.of_nat 0) with 1. rewrite N.mod_1_r. cbn [N.iter].
    revert adv i Hf Ht. induction fuel as [|fuel IHf]; intros adv i Hf Ht; cbn [jump64_loop].
    + destruct (N.eqb_spec adv 0) as [->|Hne].
      * rewrite w64_small by assumption. reflexivity.
      * pose proof (size_nat_div2 adv Hne). lia.
    + destruct (N.eqb_spec adv 0) as [->|Hne].
      * rewrite w64_small by assumption. reflexivity.
      * pose proof (size_nat_div2 adv Hne) as Hsz.
        destruct (N.ltb_spec adv 1); [lia|].
        destruct (N.odd adv) eqn:Ho.
        -- specialize (Ht 0%nat). rewrite Nat.add_0_r in Ht. simpl in Ht. now rewrite Ht.
        -- rewrite IHf.
           ++ pose proof (N.div2_odd adv) as E. rewrite Ho in E. cbn [N.b2n] in E.
              destruct (N.ltb_spec (N.div2 adv) 1); [lia|reflexivity].
           ++ lia.
           ++ intros j. specialize (Ht (S j)). rewrite Nat.add_succ_comm. rewrite Ht. reflexivity.
  - assert (Hm : forall y, aff M (dbl M e) y = aff M e (aff M e y)) by apply aff_dbl.
    assert (Htl : forall j, nth_error tbl (S i + j) =
              if (j <? n)%nat then Some (dbl_n M j (dbl M e)) else None).
    { intros j. specialize (Ht (S j)). rewrite Nat.add_succ_comm, Ht. cbn [dbl_n].
      destruct (Nat.ltb_spec j n), (Nat.ltb_spec (S j) (S n)); auto; lia. }
    assert (Hcmp : (adv <? 2 ^ N.of_nat (S n)) = (N.div2 adv <? 2 ^ N.of_nat n)).
    { pose proof (lt_pow2_div2 adv n). lia. }
    destruct fuel as [|fuel]; cbn [jump64_loop].
    + destruct (N.eqb_spec adv 0) as [->|Hne].
      * rewrite w64_small by assumption. cbn [N.iter]. rewrite N.mod_0_l by (apply N.pow_nonzero; lia).
        cbn [N.iter]. pose proof (N.pow_nonzero 2 (N.of_nat (S n))).
        destruct (N.ltb_spec 0 (2 ^ N.of_nat (S n))); [reflexivity|lia].
      * pose proof (size_nat_div2 adv Hne). lia.
    + destruct (N.eqb_spec adv 0) as [->|Hne].
      * rewrite w64_small by assumption. rewrite N.mod_0_l by (apply N.pow_nonzero; lia).
        cbn [N.iter]. pose proof (N.pow_nonzero 2 (N.of_nat (S n))).
        destruct (N.ltb_spec 0 (2 ^ N.of_nat (S n))); [reflexivity|lia].
      * pose proof (size_nat_div2 adv Hne) as Hsz.
        rewrite iter_pow2_split, Hcmp.
        rewrite <- (Niter_ext _ _ _ _ Hm).
        specialize (Ht 0%nat). rewrite Nat.add_0_r in Ht. cbn [dbl_n Nat.ltb Nat.leb] in Ht.
        destruct (N.odd adv) eqn:Ho.
        -- rewrite Ht. destruct e as [ea em]. rewrite (IH fuel tbl (dbl M (ea, em))); auto; [lia|].
           apply w64_lt.
        -- rewrite (IH fuel tbl (dbl M e)); auto; lia.
Qed.

Lemma jump_table64_ok add mult j :
  nth_error (jump_table64 add mult) (0 + j) =
  if (j <? 64)%nat then Some (dbl_n M j (add, mult)) else None.
Proof. unfold jump_table64. rewrite table64_nth. reflexivity. Qed.

Lemma lcrng64_jump_ok add mult seed adv : seed < M ->
  lcrng64_jump add mult seed adv =
  let s := N.iter (adv mod M) (lcrng64_next add mult) seed in
  (s, if adv <? M then Ok s else Raise IndexError).
Proof.
  intros Hs. unfold lcrng64_jump. rewrite (jump64_loop_ok 64 _ _ (add, mult)); auto.
  apply jump_table64_ok.
Qed.

(** ** const_jump *)
Lemma const_jump64_loop_ok n : forall fuel tbl e a m adv i,
  (N.size_nat adv <= fuel)%nat ->
  (forall j, nth_error tbl (i + j) = if (j <? n)%nat then Some (dbl_n M j e) else None) ->
  match const_jump64_loop fuel tbl a m adv i with
  | Ok c => adv < 2 ^ N.of_nat n /\
            forall x, cong M (x * snd c + fst c) (N.iter adv (aff M e) (aff M (a, m) x))
  | Raise ex => 2 ^ N.of_nat n <= adv /\ ex = IndexError
  end.
Proof.
  induction n as [|n IH]; intros fuel tbl e a m adv i Hf Ht.
  - change (2 ^ N.of_nat 0) with 1.
    destruct fuel as [|fuel]; cbn [const_jump64_loop].
    + destruct (N.eqb_spec adv 0) as [->|Hne].
      * split; [lia|]. intros x. symmetry. apply cong_mod'.
      * pose proof (size_nat_div2 adv Hne). lia.
    + destruct (N.eqb_spec adv 0) as [->|Hne].
      * split; [lia|]. intros x. symmetry. apply cong_mod'.
      * specialize (Ht 0%nat). rewrite Nat.add_0_r in Ht. simpl in Ht. rewrite Ht.
        split; [lia|reflexivity].
  - assert (Hm : forall y, aff M (dbl M e) y = aff M e (aff M e y)) by apply aff_dbl.
    assert (Htl : forall j, nth_error tbl (S i + j) =
              if (j <? n)%nat then Some (dbl_n M j (dbl M e)) else None).
    { intros j. specialize (Ht (S j)). rewrite Nat.add_succ_comm, Ht. cbn [dbl_n].
      destruct (Nat.ltb_spec j n), (Nat.ltb_spec (S j) (S n)); auto; lia. }
    pose proof (lt_pow2_div2 adv n) as Hcmp.
    pose proof (N.pow_nonzero 2 (N.of_nat (S n))) as Hnz.
    destruct fuel as [|fuel]; cbn [const_jump64_loop].
    + destruct (N.eqb_spec adv 0) as [->|Hne].
      * split; [lia|]. intros x. symmetry. apply cong_mod'.
      * pose proof (size_nat_div2 adv Hne). lia.
    + destruct (N.eqb_spec adv 0) as [->|Hne].
      * split; [lia|]. intros x. symmetry. apply cong_mod'.
      * pose proof (size_nat_div2 adv Hne) as Hsz.
        specialize (Ht 0%nat). rewrite Nat.add_0_r in Ht. cbn [dbl_n Nat.ltb Nat.leb] in Ht.
        rewrite Ht. destruct e as [ea em].
        destruct (N.odd adv) eqn:Ho.
        -- specialize (IH fuel tbl (dbl M (ea, em)) (w64 (w64 (a * em) + ea)) (w64 (m * em))
                         (N.div2 adv) (S i) ltac:(lia) Htl).
           destruct (const_jump64_loop fuel tbl _ _ _ _) as [c|ex].
           ++ destruct IH as [H1 H2]. split; [lia|]. intros x. rewrite H2.
              rewrite (iter_bits (aff M (ea, em)) adv), Ho.
              rewrite (Niter_ext _ _ _ _ Hm).
              replace (aff M (w64 (w64 (a * em) + ea), w64 (m * em)) x)
                with (aff M (ea, em) (aff M (a, m) x)); [reflexivity|].
              unfold aff, w64; cbn [fst snd].
              change (cong M ((x * m + a) mod M * em + ea)
                        (x * ((m * em) mod M) + ((a * em) mod M + ea) mod M)).
              rewrite !cong_mod'.
              replace ((x * m + a) * em + ea) with (x * (m * em) + (a * em + ea)) by ring.
              reflexivity.
           ++ destruct IH as [H1 H2]. split; [lia|assumption].
        -- specialize (IH fuel tbl (dbl M (ea, em)) a m (N.div2 adv) (S i) ltac:(lia) Htl).
           destruct (const_jump64_loop fuel tbl _ _ _ _) as [c|ex].
           ++ destruct IH as [H1 H2]. split; [lia|]. intros x. rewrite H2.
              rewrite (iter_bits (aff M (ea, em)) adv), Ho.
              rewrite (Niter_ext _ _ _ _ Hm). reflexivity.
           ++ destruct IH as [H1 H2]. split; [lia|assumption].
Qed.

Lemma lcrng64_const_jump_ok add mult adv :
  (adv < M -> exists f, lcrng64_const_jump add mult adv = Ok f /\
     forall seed, seed < M -> f seed = N.iter adv (lcrng64_next add mult) seed) /\
  (M <= adv -> lcrng64_const_jump add mult adv = Raise IndexError).
Proof.
  unfold lcrng64_const_jump.
  pose proof (const_jump64_loop_ok 64 (N.size_nat adv) (jump_table64 add mult) (add, mult) 0 1 adv 0
                ltac:(lia) (jump_table64_ok add mult)) as H.
  change (2 ^ N.of_nat 64) with M in H.
  destruct (const_jump64_loop _ _ _ _ _ _) as [c|ex]; cbn [rmap].
  - destruct H as [H1 H2]. split; [|lia]. intros _. eexists; split; [reflexivity|].
    intros seed Hs. unfold jump_func64, w64. rewrite (H2 seed).
    assert (E : aff M (0, 1) seed = seed).
    { unfold aff; cbn [fst snd]. rewrite N.mul_1_r, N.add_0_r. now apply N.mod_small. }
    rewrite E. apply N.mod_small. now apply iter_next64_lt.
  - destruct H as [H1 ->]. split; [lia|reflexivity].
Qed.

Lemma lcrng64_advance_ok add mult seed adv :
  lcrng64_advance add mult seed adv = N.iter (adv mod M) (lcrng64_next add mult) seed.
Proof. reflexivity. Qed.

Lemma lcrng64_next_spec add mult seed : lcrng64_next add mult seed = lcg 64 mult add seed.
Proof. unfold lcrng64_next, lcg, w64. now rewrite N.mul_comm. Qed.

Lemma lcrng64_steps_spec add mult n seed :
  N.iter n (lcrng64_next add mult) seed = lcg_steps 64 mult add n seed.
Proof. apply Niter_ext. intros; apply lcrng64_next_spec. Qed.

(** ** reverse *)

Lemma lcrng64_reverse_consts minor add mult :
  (N.odd mult = true -> exists ra rm, lcrng64_consts minor add mult true = Ok (ra, rm) /\
     ra < M /\ rm < M /\ cong M (mult * rm) 1 /\ cong M (ra + add * rm) 0) /\
  (N.odd mult = false -> lcrng64_consts minor add mult true = Raise ValueError).
Proof.
  unfold lcrng64_consts.
  destruct (mod_inv_ok minor (Z.of_N mult) 18446744073709551616 ltac:(lia) ltac:(lia)) as [A B].
  split; intros Ho.
  - destruct A as (r & -> & Hr & E).
    { change 18446744073709551616%Z with (2 ^ 64)%Z. apply gcd_pow2_odd; [lia|]. now rewrite N_odd_Z. }
    cbn [rmap]. eexists _, _. split; [reflexivity|].
    assert (Hw : w64 (Z.to_N r) = Z.to_N r) by (apply w64_small; lia).
    rewrite Hw. split; [apply w64_lt|]. split; [lia|]. split.
    + unfold cong. change (1 mod M) with 1.
      apply N2Z.inj. rewrite N2Z.inj_mod, N2Z.inj_mul, Z2N.id by lia. exact E.
    + unfold neg64, sub64, w64. rewrite !cong_mod'.
      rewrite N.add_0_l.
      assert (HM : cong M (M - add mod M + add) 0).
      { rewrite <- (cong_mod' M add) at 2.
        replace (M - add mod M + add mod M) with M by (pose proof (N.mod_lt add M ltac:(lia)); lia).
        reflexivity. }
      replace ((M - add mod M) * Z.to_N r + add * Z.to_N r) with ((M - add mod M + add) * Z.to_N r) by ring.
      rewrite HM. reflexivity.
  - rewrite B; [reflexivity|].
    change 18446744073709551616%Z with (2 ^ 64)%Z. apply gcd_pow2_even; [lia|]. now rewrite N_odd_Z.
Qed.

Lemma lcrng64_reverse_ok minor add mult : N.odd mult = true ->
  exists fa fm ra rm,
    lcrng64_consts minor add mult false = Ok (fa, fm) /\
    lcrng64_consts minor add mult true = Ok (ra, rm) /\
    (forall seed, seed < M -> lcrng64_next ra rm (lcrng64_next fa fm seed) = seed) /\
    (forall seed, seed < M -> lcrng64_next fa fm (lcrng64_next ra rm seed) = seed).
Proof.
  intros Ho. destruct (proj1 (lcrng64_reverse_consts minor add mult) Ho)
    as (ra & rm & E & Hra & Hrm & Hm & Ha).
  exists (w64 add), (w64 mult), ra, rm. split; [reflexivity|]. split; [assumption|].
  assert (Hm' : cong M (w64 mult * rm) 1) by (unfold w64; rewrite cong_mod'; assumption).
  assert (Ha' : cong M (ra + w64 add * rm) 0) by (unfold w64; rewrite cong_mod'; assumption).
  split; intros seed Hs; rewrite !next64_aff.
  - now apply aff_inverse.
  - apply aff_inverse; [lia| | |assumption].
    + rewrite N.mul_comm. assumption.
    + transitivity (w64 add * (w64 mult * rm) + ra * w64 mult).
      { rewrite Hm'. now rewrite N.mul_1_r. }
      replace (w64 add * (w64 mult * rm) + ra * w64 mult) with ((ra + w64 add * rm) * w64 mult) by ring.
      rewrite Ha'. reflexivity.
Qed.

Lemma iter_inverse64 (f g : N -> N) n seed :
  (forall s, s < M -> f s < M) -> (forall s, s < M -> g (f s) = s) -> seed < M ->
  N.iter n g (N.iter n f seed) = seed.
Proof.
  intros Hf Hg. revert seed. induction n using N.peano_ind; intros seed Hs; [reflexivity|].
  rewrite (Niter_succ_r g), Niter_succ, Hg; [now apply IHn|].
  apply Niter_inv; auto.
Qed.

Lemma lcrng64_full_period add mult :
  (exists q, mult = 4 * q + 1) -> (exists q, add = 2 * q + 1) ->
  full_period 64 (lcrng64_next add mult).
Proof. intros Hm Ha. exact (f_full_period mult add Hm Ha 64). Qed.

(** ** bounded rands *)
Lemma next_u32_ok add mult seed :
  lcrng64_next_u32 add mult seed =
  (lcrng64_next add mult seed, lcrng64_next add mult seed / 4294967296).
Proof.
  unfold lcrng64_next_u32. f_equal.
  pose proof (next64_lt add mult seed) as H.
  rewrite w64_small, N.shiftr_div_pow2 by assumption. change (2 ^ 32) with 4294967296.
  apply w32_small. lia.
Qed.
