(** Proofs about Model/Gen3Area.v. *)
From Coq Require Import NArith ZArith List Bool Lia.
From Verif Require Import Base.Word Base.WordLemmas Model.Lcrng32 Model.LcrngClasses
  Model.Gen3State Model.Gen3Area Model.Gen3Wild Spec.LcrngSpec Spec.Gen3Spec Spec.Gen3WildSpec
  Proofs.LcrngFinal.
Import ListNotations.
Ltac Zify.zify_post_hook ::= idtac.
Open Scope N_scope.

(** * compute_table *)
Lemma fill_ok c : forall r i t last,
  (0 <= r)%Z -> (r + Z.of_nat c <= 100)%Z -> length t = 100%nat -> i < 256 ->
  exists t', fill c r 1 i t last = Ok (t', if (c =? 0)%nat then last else (r + Z.of_nat c - 1)%Z)
    /\ length t' = 100%nat
    /\ forall k, (k < 100)%nat ->
         aget t' k = if ((r <=? Z.of_nat k) && (Z.of_nat k <? r + Z.of_nat c))%Z then i else aget t k.
Proof.
  induction c as [|c IH]; intros r i t last Hr Hc Ht Hi.
  - exists t. repeat split; auto. intros k Hk.
    destruct (Z.leb_spec r (Z.of_nat k)), (Z.ltb_spec (Z.of_nat k) (r + Z.of_nat 0)); cbn [andb]; auto; lia.
  - cbn [fill]. unfold table_index.
    destruct (Z.leb_spec 0 r); [|lia]. destruct (Z.ltb_spec r 100); [|lia]. cbn [andb rbind].
    destruct (IH (r + 1)%Z i (aset t (Z.to_nat r) (w8 i)) r) as (t' & E & L & G); try lia.
    { now rewrite aset_length. }
    exists t'. split; [|split; [exact L|]].
    + rewrite E. f_equal. f_equal. destruct c; cbn [Nat.eqb]; lia.
    + intros k Hk. rewrite (G k Hk). rewrite w8_small by exact Hi.
      destruct (Nat.eq_dec k (Z.to_nat r)) as [->|N].
      * rewrite aget_aset_eq by lia.
        destruct (Z.leb_spec (r + 1) (Z.of_nat (Z.to_nat r))); [lia|]. cbn [andb].
        destruct (Z.leb_spec r (Z.of_nat (Z.to_nat r))); [|lia].
        destruct (Z.ltb_spec (Z.of_nat (Z.to_nat r)) (r + Z.of_nat (S c))); [reflexivity|lia].
      * rewrite aget_aset_ne by congruence.
        destruct (Z.leb_spec (r + 1) (Z.of_nat k)), (Z.ltb_spec (Z.of_nat k) (r + 1 + Z.of_nat c)),
          (Z.leb_spec r (Z.of_nat k)), (Z.ltb_spec (Z.of_nat k) (r + Z.of_nat (S c)));
          cbn [andb]; try reflexivity; lia.
Qed.

Lemma increasing_lt lo l : increasing_to_100 lo l -> (lo < 100)%Z.
Proof.
  revert lo. induction l as [|c [|c' rest] IH]; intros lo H; cbn in H; [contradiction|lia|].
  destruct H as [H1 H2]. specialize (IH c H2). lia.
Qed.

Lemma table_loop_ok l : forall lo i r t,
  increasing_to_100 lo l -> (0 <= r <= lo)%Z -> (Z.of_N i <= lo)%Z -> length t = 100%nat ->
  exists t', table_loop l false i r t = Ok t' /\ length t' = 100%nat /\
    forall k, (k < 100)%nat ->
      aget t' k = if (r <=? Z.of_nat k)%Z then i + slot_one_early l (Z.of_nat k) else aget t k.
Proof.
  induction l as [|c rest IH]; intros lo i r t H Hr Hi Ht; [contradiction|].
  pose proof (increasing_lt _ _ H) as Hlo.
  assert (Hc : (lo < c <= 100)%Z).
  { destruct rest as [|c' rest']; [cbn in H; lia|]. destruct H as [H1 H2].
    pose proof (increasing_lt _ _ H2). lia. }
  cbn [table_loop].
  destruct (fill_ok (Z.to_nat (c - r)) r i t r) as (t1 & E & L & G); try lia.
  rewrite E. cbn [rbind].
  destruct (Nat.eqb_spec (Z.to_nat (c - r)) 0) as [F|F]; [lia|].
  replace (r + Z.of_nat (Z.to_nat (c - r)) - 1)%Z with (c - 1)%Z by lia.
  destruct rest as [|c' rest'].
  - cbn [table_loop]. exists t1. repeat split; auto.
    intros k Hk. rewrite (G k Hk). cbn in H.
    cbn [slot_one_early]. rewrite N.add_0_r.
    destruct (Z.leb_spec r (Z.of_nat k)); cbn [andb]; [|reflexivity].
    destruct (Z.ltb_spec (Z.of_nat k) (r + Z.of_nat (Z.to_nat (c - r)))); [reflexivity|lia].
  - destruct H as [_ H2].
    destruct (IH c (i + 1) (c - 1)%Z t1 H2) as (t' & E' & L' & G'); try lia.
    exists t'. split; [exact E'|]. split; [exact L'|].
    intros k Hk. rewrite (G' k Hk).
    change (slot_one_early (c :: c' :: rest') (Z.of_nat k))
      with (if (Z.of_nat k + 1 <? c)%Z then 0 else 1 + slot_one_early (c' :: rest') (Z.of_nat k)).
    destruct (Z.leb_spec (c - 1) (Z.of_nat k)).
    + destruct (Z.leb_spec r (Z.of_nat k)); [|lia].
      destruct (Z.ltb_spec (Z.of_nat k + 1) c); [lia|]. apply N.add_assoc || (rewrite <- N.add_assoc; reflexivity).
    + rewrite (G k Hk).
      destruct (Z.ltb_spec (Z.of_nat k + 1) c); [|lia].
      destruct (Z.leb_spec r (Z.of_nat k)); cbn [andb]; [|reflexivity].
      destruct (Z.ltb_spec (Z.of_nat k) (r + Z.of_nat (Z.to_nat (c - r)))); [|lia]. now rewrite N.add_0_r.
Qed.

Lemma c44_actual junk ranges : length junk = 100%nat -> increasing_to_100 0 ranges ->
  exists t, compute_table junk ranges false = Ok t /\ length t = 100%nat /\
    forall r, r < 100 -> aget t (N.to_nat r) = slot_one_early ranges (Z.of_N r).
Proof.
  intros Hj Hr. unfold compute_table.
  destruct (table_loop_ok ranges 0%Z 0 0%Z junk Hr) as (t & E & L & G); try lia; try assumption.
  exists t. split; [exact E|]. split; [exact L|].
  intros r Hlt. rewrite (G (N.to_nat r)) by lia.
  destruct (Z.leb_spec 0 (Z.of_nat (N.to_nat r))); [|lia]. rewrite N.add_0_l. f_equal. lia.
Qed.

(** Where the two tables differ: at the last roll of every slot but the last. *)
Lemma early_vs_roll l : forall lo r, increasing_to_100 lo l -> (r < 100)%Z ->
  slot_one_early l r =
    slot_of_roll l r + (if existsb (Z.eqb (r + 1)) l && (r + 1 <? 100)%Z then 1 else 0).
Proof.
  induction l as [|c rest IH]; intros lo r H Hr; [contradiction|].
  destruct rest as [|c' rest'].
  - cbn in H. cbn [slot_one_early slot_of_roll existsb].
    destruct (Z.ltb_spec r c); [|lia]. rewrite orb_false_r.
    destruct (Z.eqb_spec (r + 1) c), (Z.ltb_spec (r + 1) 100); cbn [andb]; try lia; reflexivity.
  - destruct H as [H1 H2]. specialize (IH c r H2 Hr).
    change (slot_one_early (c :: c' :: rest') r)
      with (if (r + 1 <? c)%Z then 0 else 1 + slot_one_early (c' :: rest') r).
    change (slot_of_roll (c :: c' :: rest') r)
      with (if (r <? c)%Z then 0 else 1 + slot_of_roll (c' :: rest') r).
    change (existsb (Z.eqb (r + 1)) (c :: c' :: rest'))
      with ((r + 1 =? c)%Z || existsb (Z.eqb (r + 1)) (c' :: rest')).
    pose proof (increasing_lt _ _ H2) as Hc100.
    destruct (Z.ltb_spec (r + 1) c) as [L|L].
    + destruct (Z.ltb_spec r c); [|lia]. destruct (Z.eqb_spec (r + 1) c); [lia|]. cbn [orb].
      assert (E : existsb (Z.eqb (r + 1)) (c' :: rest') = false).
      { assert (K : forall l lo, increasing_to_100 lo l -> (r + 1 <= lo)%Z -> existsb (Z.eqb (r + 1)) l = false).
        { clear. induction l as [|d [|d' l'] IH]; intros lo H Hl; [reflexivity| |].
          - cbn in *. destruct (Z.eqb_spec (r + 1) d); [lia|reflexivity].
          - destruct H as [H1 H2]. cbn [existsb]. destruct (Z.eqb_spec (r + 1) d); [lia|]. cbn [orb].
            apply (IH d H2). lia. }
        apply (K _ c H2). lia. }
      rewrite E. cbn [andb]. lia.
    + rewrite IH. destruct (Z.eqb_spec (r + 1) c) as [E|E]; cbn [orb].
      * destruct (Z.ltb_spec r c); [|lia]. destruct (Z.ltb_spec (r + 1) 100); [|lia]. cbn [andb].
        (* the following slots are above r + 1 *)
        assert (Z0 : slot_of_roll (c' :: rest') r = 0).
        { destruct rest'; cbn in H2 |- *; destruct (Z.ltb_spec r c'); try lia; reflexivity. }
        assert (E' : existsb (Z.eqb (r + 1)) (c' :: rest') = false).
        { assert (K : forall l lo, increasing_to_100 lo l -> (r + 1 <= lo)%Z -> existsb (Z.eqb (r + 1)) l = false).
          { clear. induction l as [|d [|d' l'] IH]; intros lo H Hl; [reflexivity| |].
            - cbn in *. destruct (Z.eqb_spec (r + 1) d); [lia|reflexivity].
            - destruct H as [H1 H2]. cbn [existsb]. destruct (Z.eqb_spec (r + 1) d); [lia|]. cbn [orb].
              apply (IH d H2). lia. }
          apply (K _ c H2). lia. }
        rewrite Z0, E'. reflexivity.
      * destruct (Z.ltb_spec r c); [lia|]. lia.
Qed.

(** * Rands as steps of the main generator *)
Definition steps (k s : N) : N := lcg_steps 32 0x41C64E6D 0x6073 k s.
Lemma steps_S k s : lcg 32 0x41C64E6D 0x6073 (steps k s) = steps (k + 1) s.
Proof.
  unfold steps, lcg_steps. rewrite N.add_1_r. symmetry. apply Niter_succ.
Qed.
Lemma steps_lt k s : s < 2^32 -> steps k s < 2^32.
Proof.
  intros H. unfold steps, lcg_steps. apply (Niter_inv (fun y => y < 2^32)); [|exact H].
  intros y _. unfold lcg. apply N.mod_lt. discriminate.
Qed.
Lemma rand_at_lt s k : s < 2^32 -> rand_at s k < 65536.
Proof.
  intros H. unfold rand_at. apply N.div_lt_upper_bound; [discriminate|].
  exact (steps_lt k s H).
Qed.
Lemma poke_next_steps k s : poke_next (steps k s) = steps (k + 1) s.
Proof.
  unfold poke_next. rewrite <- steps_S. unfold lcrng32_next, lcg, w32.
  change (p32_mult PokeRNGMod) with 0x41C64E6D. change (p32_add PokeRNGMod) with 0x6073.
  change (2^32) with 4294967296. f_equal. lia.
Qed.
Lemma poke_u16_steps k s : s < 2^32 -> poke_next_u16 (steps k s) = (steps (k + 1) s, rand_at s (k + 1)).
Proof.
  intros Hs. unfold poke_next_u16, lcrng32_next_u16. cbv zeta.
  fold (poke_next (steps k s)). rewrite poke_next_steps. f_equal.
  pose proof (steps_lt (k + 1) s Hs) as L. pose proof (rand_at_lt s (k + 1) Hs).
  unfold rand_at in *. fold (steps (k + 1) s) in *.
  change (2^32) with 4294967296 in L.
  rewrite w32_small by exact L. rewrite N.shiftr_div_pow2. change (2^16) with 65536.
  apply w16_small. assumption.
Qed.
Lemma poke_rand_steps n k s : s < 2^32 -> 1 <= n < 65536 ->
  poke_next_rand (steps k s) n = (steps (k + 1) s, Ok (rand_at s (k + 1) mod n)).
Proof.
  intros Hs Hn. unfold poke_next_rand.
  destruct (c06_modulo Numba (p32_add PokeRNGMod) (p32_mult PokeRNGMod) (steps k s) n) as (v & E & Ev & _).
  { exact Hn. }
  change (p32_dist PokeRNGMod) with D32_MODULO. rewrite E. subst v.
  change (p32_mult PokeRNGMod) with 0x41C64E6D. change (p32_add PokeRNGMod) with 0x6073.
  rewrite steps_S. reflexivity.
Qed.
Lemma poke_const_rand_eq n s : poke_const_rand n s = poke_next_rand s n.
Proof. reflexivity. Qed.
Lemma const_rand_steps n k s : s < 2^32 -> 1 <= n < 65536 ->
  poke_const_rand n (steps k s) = (steps (k + 1) s, Ok (rand_at s (k + 1) mod n)).
Proof. rewrite poke_const_rand_eq. apply poke_rand_steps. Qed.
