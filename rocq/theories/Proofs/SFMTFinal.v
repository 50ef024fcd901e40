(** The SFMT statements, assembled. *)
From Coq Require Import NArith ZArith List Bool Lia Btauto.
From Coq Require Import ZifyBool ZifyNat ZifyN.
From Verif Require Import Base.Word Base.WordLemmas Model.SFMT Spec.SFMTSpec Spec.SFMTHistory
  Proofs.SFMTProofs Proofs.SFMTShuffle Proofs.GF2 Proofs.SFMTMatrix.
Import ListNotations.
Open Scope N_scope.

Local Notation M32 := 4294967296.

(** ** certification *)
Lemma fold_bit0 x : N.testbit (sfmt_fold x) 0 = odd_ones 32 x.
Proof.
  unfold sfmt_fold. rewrite ?N.lxor_spec, ?shiftr_bits, ?N.lxor_spec, ?shiftr_bits, ?N.lxor_spec, ?shiftr_bits,
    ?N.lxor_spec, ?shiftr_bits, ?N.lxor_spec, ?shiftr_bits.
  unfold odd_ones. cbn [seq map fold_right N.of_nat Pos.of_succ_nat Pos.succ N.add Pos.add Pos.add_carry].
  btauto.
Qed.

Lemma fold_xorb_app l l' : fold_right xorb false (l ++ l') = xorb (fold_right xorb false l) (fold_right xorb false l').
Proof.
  induction l as [|x l IH]; [symmetry; apply xorb_false_l|].
  change (xorb x (fold_right xorb false (l ++ l')) = xorb (xorb x (fold_right xorb false l)) (fold_right xorb false l')).
  now rewrite IH, xorb_assoc.
Qed.
Lemma odd_ones_ext n x y : (forall i, i < N.of_nat n -> N.testbit x i = N.testbit y i) ->
  odd_ones n x = odd_ones n y.
Proof.
  intros H. unfold odd_ones. f_equal. apply map_ext_in. intros i Hi. apply in_seq in Hi. apply H. lia.
Qed.
Lemma odd_ones_split n k w : odd_ones (n + k) w = xorb (odd_ones n w) (odd_ones k (w / 2 ^ N.of_nat n)).
Proof.
  unfold odd_ones. rewrite seq_app, map_app, fold_xorb_app. do 2 f_equal.
  rewrite Nat.add_0_l.
  assert (E : seq n k = map (fun i => (n + i)%nat) (seq 0 k)).
  { clear. rewrite <- (Nat.add_0_r n) at 1. generalize 0%nat as a. induction k; intros a; [reflexivity|].
    cbn [seq map]. f_equal. now rewrite <- IHk, Nat.add_succ_r. }
  rewrite E, map_map. apply map_ext. intros i. rewrite <- N.shiftr_div_pow2, shiftr_bits. f_equal. lia.
Qed.
Lemma odd_ones_lxor n x y : odd_ones n (N.lxor x y) = xorb (odd_ones n x) (odd_ones n y).
Proof.
  unfold odd_ones. induction (seq 0 n) as [|i l IH]; [reflexivity|].
  cbn [map fold_right]. rewrite IH, N.lxor_spec. btauto.
Qed.

(** The bits of one lane. *)
Lemma odd_ones_lane l w p : odd_ones 32 (N.land w p / 2^(32 * l)) = odd_ones 32 (N.land (lane l w) (lane l p)).
Proof.
  apply odd_ones_ext. intros i Hi. change (N.of_nat 32) with 32 in Hi.
  rewrite <- N.shiftr_div_pow2, shiftr_bits, !N.land_spec, !lane_bits.
  destruct (N.ltb_spec i 32); [|lia]. reflexivity.
Qed.
Lemma odd_ones_lanes w p : odd_ones 128 (N.land w p) =
  xorb (odd_ones 32 (N.land (lane 0 w) (lane 0 p)))
    (xorb (odd_ones 32 (N.land (lane 1 w) (lane 1 p)))
       (xorb (odd_ones 32 (N.land (lane 2 w) (lane 2 p))) (odd_ones 32 (N.land (lane 3 w) (lane 3 p))))).
Proof.
  change 128%nat with (32 + (32 + (32 + 32)))%nat. rewrite !odd_ones_split, !N.div_div by discriminate.
  change (2 ^ N.of_nat 32 * 2 ^ N.of_nat 32 * 2 ^ N.of_nat 32) with (2^(32*3)).
  change (2 ^ N.of_nat 32 * 2 ^ N.of_nat 32) with (2^(32*2)).
  change (2 ^ N.of_nat 32) with (2^(32*1)).
  rewrite !odd_ones_lane. f_equal.
  rewrite <- (odd_ones_lane 0). change (2^(32*0)) with 1. now rewrite N.div_1_r.
Qed.

Lemma odd_ones_parity a b c d : a < M32 -> b < M32 -> c < M32 -> d < M32 ->
  odd_ones 128 (N.land (of_lanes a b c d) SFMT_PARITY)
  = odd_ones 32 (N.lxor (N.land a 1) (N.land d 0x13C9E684)).
Proof.
  intros Ha Hb Hc Hd.
  destruct (lane_of_lanes a b c d Ha Hb Hc Hd) as (Ea & Eb & Ec & Ed).
  rewrite odd_ones_lanes, Ea, Eb, Ec, Ed.
  change (lane 0 SFMT_PARITY) with 1. change (lane 1 SFMT_PARITY) with 0.
  change (lane 2 SFMT_PARITY) with 0. change (lane 3 SFMT_PARITY) with 0x13C9E684.
  rewrite !N.land_0_r, odd_ones_lxor. change (odd_ones 32 0) with false. now rewrite !xorb_false_l.
Qed.

Lemma certified_odd w : odd_ones 128 (N.land (certified w) SFMT_PARITY) = true.
Proof.
  unfold certified. destruct (odd_ones 128 (N.land w SFMT_PARITY)) eqn:E; [exact E|].
  rewrite land_lxor_distr, odd_ones_lxor, E. now vm_compute.
Qed.

Lemma certified_lt w : w < 2^128 -> certified w < 2^128.
Proof.
  intros H. unfold certified. destruct (odd_ones _ _); [assumption|].
  apply (lxor_lt w 1 128); [assumption|reflexivity].
Qed.

(** ** Knuth's words *)
Fixpoint kwords (n : nat) (i : nat) (s : N) : list N :=
  match n with O => [] | S n' => s :: kwords n' (S i) (sfmt_init_word s (S i)) end.
Definition kword (seed : N) (i : nat) : N := aget (kwords 624 0 (w32 seed)) i.
Lemma kwords_nth n : forall i s j, (S j < n)%nat ->
  aget (kwords n i s) (S j) = sfmt_init_word (aget (kwords n i s) j) (S (i + j)).
Proof.
  induction n; intros i s j Hj; [lia|]. destruct j.
  - destruct n; [lia|]. cbn. now rewrite Nat.add_0_r.
  - change (aget (kwords (S n) i s) (S (S j))) with (aget (kwords n (S i) (sfmt_init_word s (S i))) (S j)).
    change (aget (kwords (S n) i s) (S j)) with (aget (kwords n (S i) (sfmt_init_word s (S i))) j).
    rewrite IHn by lia. do 2 f_equal. lia.
Qed.
Lemma knuth_exists seed : knuth_init seed (kword seed).
Proof.
  split; [reflexivity|]. intros i Hi. unfold kword. rewrite kwords_nth by lia.
  unfold sfmt_init_word. rewrite N.shiftr_div_pow2. reflexivity.
Qed.
Lemma knuth_unique seed v v' : knuth_init seed v -> knuth_init seed v' ->
  forall i, (i < 624)%nat -> v i = v' i.
Proof.
  intros H H' i. induction i; intros Hi.
  - now rewrite (knuth_first _ _ H), (knuth_first _ _ H').
  - rewrite (knuth_next _ _ H), (knuth_next _ _ H'), IHi by lia. reflexivity.
Qed.
Lemma knuth_lt seed v : knuth_init seed v -> forall i, (i < 624)%nat -> v i < M32.
Proof.
  intros H i Hi. destruct i.
  - rewrite (knuth_first _ _ H). apply N.mod_lt. discriminate.
  - rewrite (knuth_next _ _ H) by lia. apply N.mod_lt. discriminate.
Qed.

Lemma SFMT_lt seed W : SFMT19937 seed W -> forall k, W k < 2^128.
Proof.
  intros H. destruct (sfmt19937_init _ _ H) as (v & Hv & H0 & H1).
  assert (L : forall j, (j < 156)%nat -> word128 v j < 2^128).
  { intros j Hj. apply of_lanes_lt; apply (knuth_lt seed v Hv); lia. }
  intros k. induction k as [k IH] using (well_founded_induction lt_wf).
  destruct (Nat.lt_ge_cases k 156).
  - destruct k; [rewrite H0; apply certified_lt, L; lia|]. rewrite H1 by lia. apply L. lia.
  - replace k with (k - 156 + 156)%nat by lia. rewrite (sfmt19937_rec _ _ H).
    apply recursion_lt; apply IH; lia.
Qed.

Definition sfmt_first_words (seed : N) : list N :=
  certified (word128 (kword seed) 0) :: map (word128 (kword seed)) (seq 1 155).
Definition sfmt_seq (seed : N) : nat -> N := sseq (sfmt_first_words seed).
Lemma first_words_length seed : length (sfmt_first_words seed) = 156%nat.
Proof. unfold sfmt_first_words. cbn [length]. now rewrite map_length, seq_length. Qed.
Lemma first_words_get seed j : (0 < j < 156)%nat ->
  aget (sfmt_first_words seed) j = word128 (kword seed) j.
Proof.
  intros Hj. destruct j; [lia|]. unfold sfmt_first_words, aget. cbn [nth].
  rewrite (nth_indep _ 0 (word128 (kword seed) 0)) by (rewrite map_length, seq_length; lia).
  rewrite map_nth, seq_nth by lia. reflexivity.
Qed.
Lemma sfmt_exists seed : SFMT19937 seed (sfmt_seq seed).
Proof.
  split.
  - exists (kword seed). split; [apply knuth_exists|]. split.
    + unfold sfmt_seq. rewrite sseq_init by (apply first_words_length || lia). reflexivity.
    + intros j Hj. unfold sfmt_seq. rewrite sseq_init by (apply first_words_length || lia).
      now apply first_words_get.
  - apply sseq_rec, first_words_length.
Qed.
Lemma sfmt_unique seed W W' : SFMT19937 seed W -> SFMT19937 seed W' -> forall k, W k = W' k.
Proof.
  intros H H'. destruct (sfmt19937_init _ _ H) as (v & Hv & H0 & H1).
  destruct (sfmt19937_init _ _ H') as (v' & Hv' & H0' & H1').
  assert (E : forall j, (j < 156)%nat -> word128 v j = word128 v' j).
  { intros j Hj. unfold word128. now rewrite !(knuth_unique _ _ _ Hv Hv') by lia. }
  intros k. induction k as [k IH] using (well_founded_induction lt_wf).
  destruct (Nat.lt_ge_cases k 156).
  - destruct k; [now rewrite H0, H0', E by lia|]. rewrite H1, H1' by lia. apply E. lia.
  - replace k with (k - 156 + 156)%nat by lia.
    rewrite (sfmt19937_rec _ _ H), (sfmt19937_rec _ _ H'). now rewrite !IH by lia.
Qed.

(** ** positions *)
(** The next output of the object is 64-bit word [q]. *)
Definition sat (W : nat -> N) (self : sfmt) (q : nat) : Prop :=
  exists b, length (sfmt_state self) = 624%nat /\ sholds W (sfmt_state self) b /\
    sfmt_index self <= 624 /\ (4 * b + N.to_nat (sfmt_index self) = 2 * q)%nat.

Lemma lor_comm_add a b : a < 2^32 -> N.lor a (N.shiftl b 32) = b * 2^32 + a.
Proof. intros H. rewrite N.lor_comm. now apply lor_shiftl_add. Qed.

Lemma half_low w : N.lor (lane 0 w) (shl64 (lane 1 w) 32) = w mod 2^64.
Proof.
  unfold shl64. rewrite w64_small.
  2: { rewrite N.shiftl_mul_pow2. pose proof (lane_lt 1 w). change (2^32) with M32. lia. }
  rewrite lor_comm_add by apply lane_lt. unfold lane.
  change (2^(32*0)) with 1. change (2^(32*1)) with M32. change (2^32) with M32.
  change (2^64) with 18446744073709551616. lia.
Qed.
Lemma half_high w : w < 2^128 -> N.lor (lane 2 w) (shl64 (lane 3 w) 32) = w / 2^64.
Proof.
  intros H. unfold shl64. rewrite w64_small.
  2: { rewrite N.shiftl_mul_pow2. pose proof (lane_lt 3 w). change (2^32) with M32. lia. }
  rewrite lor_comm_add by apply lane_lt. unfold lane.
  change (2^(32*2)) with 18446744073709551616. change (2^(32*3)) with 79228162514264337593543950336.
  change (2^32) with M32. change (2^64) with 18446744073709551616.
  change (2^128) with 340282366920938463463374607431768211456 in H. lia.
Qed.

Section Pos.
  Variable W : nat -> N.
  Hypothesis Wrec : srec W.
  Hypothesis Wlt : forall k, W k < 2^128.

  Lemma shuffle_ok m self b : length (sfmt_state self) = 624%nat -> sholds W (sfmt_state self) b ->
    exists self', sfmt_shuffle m self = Ok self' /\ length (sfmt_state self') = 624%nat /\
      sholds W (sfmt_state self') (b + 156) /\ sfmt_index self' = 0.
  Proof.
    intros L H. unfold sfmt_shuffle. destruct m; cbn [rmap].
    - destruct (shuffle_py_holds W Wrec Wlt b _ H) as (H1 & H2 & _).
      eexists; split; [reflexivity|]. cbn [sfmt_state sfmt_index]. split; [congruence|]; split; [exact H1|reflexivity].
    - destruct (shuffle_ir_holds W Wrec Wlt b _ H) as (st' & -> & H1 & H2 & _). cbn [rmap].
      eexists; split; [reflexivity|]. cbn [sfmt_state sfmt_index]. split; [congruence|]; split; [exact H1|reflexivity].
  Qed.

  Lemma read64 st b i : sholds W st b -> (i < 312)%nat ->
    N.lor (aget st (2 * i)) (shl64 (aget st (2 * i + 1)) 32) = half64 W (2 * b + i).
  Proof.
    intros [_ H] Hi. unfold half64.
    destruct (Nat.Even_or_Odd i) as [[j ->]|[j ->]].
    - specialize (H j ltac:(lia)) as (A0 & A1 & A2 & A3).
      replace (2 * b + 2 * j)%nat with (2 * (b + j))%nat by lia.
      rewrite Nat.div2_double. replace (Nat.even (2 * (b + j))) with true
        by (symmetry; apply Nat.even_spec; now exists (b + j)%nat).
      replace (2 * (2 * j))%nat with (4 * j)%nat by lia. rewrite A0, A1. apply half_low.
    - specialize (H j ltac:(lia)) as (A0 & A1 & A2 & A3).
      replace (2 * b + (2 * j + 1))%nat with (S (2 * (b + j)))%nat by lia.
      rewrite Nat.div2_succ_double. replace (Nat.even (S (2 * (b + j)))) with false.
      2: { symmetry. rewrite Nat.even_succ. apply not_true_is_false. intros C.
           apply Nat.odd_spec in C. destruct C. lia. }
      replace (2 * (2 * j + 1))%nat with (4 * j + 2)%nat by lia.
      replace (4 * j + 2 + 1)%nat with (4 * j + 3)%nat by lia. rewrite A2, A3. now apply half_high.
  Qed.

  Lemma next_sat m self q : sat W self q ->
    exists self', sfmt_next m self = Ok (self', half64 W q) /\ sat W self' (S q).
  Proof.
    intros (b & L & H & Hi & Hp). unfold sfmt_next.
    assert (R : forall self b, length (sfmt_state self) = 624%nat -> sholds W (sfmt_state self) b ->
      sfmt_index self < 624 -> (4 * b + N.to_nat (sfmt_index self) = 2 * q)%nat ->
      exists self',
       (mkSFMT (sfmt_state self) (w16 (w16 (sfmt_index self + 1) + 1)),
        N.lor (aget (sfmt_state self) (N.to_nat (sfmt_index self)))
              (shl64 (aget (sfmt_state self) (N.to_nat (w16 (sfmt_index self + 1)))) 32))
       = (self', half64 W q) /\ sat W self' (S q)).
    { clear self b L H Hi Hp. intros self b L H Hi Hp.
      rewrite (w16_small (sfmt_index self + 1)) by lia. rewrite w16_small by lia.
      eexists; split.
      - f_equal. replace (N.to_nat (sfmt_index self + 1)) with (N.to_nat (sfmt_index self) + 1)%nat by lia.
        set (i := (q - 2 * b)%nat).
        replace (N.to_nat (sfmt_index self)) with (2 * i)%nat by lia.
        rewrite (read64 _ b) by (assumption || lia). f_equal. lia.
      - exists b. cbn [sfmt_state sfmt_index]. split; [exact L|]. split; [exact H|]. lia. }
    destruct (N.eqb_spec (sfmt_index self) 624) as [E|E].
    - destruct (shuffle_ok m self b L H) as (self' & -> & L' & H' & I'). cbn [rmap].
      destruct (R self' (b + 156)%nat L' H') as (self'' & E1 & E2); [lia|lia|].
      exists self''. split; [|assumption]. f_equal. exact E1.
    - cbn [rmap]. destruct (R self b L H) as (self'' & E1 & E2); [lia|lia|].
      exists self''. split; [|assumption]. f_equal. exact E1.
  Qed.

  Lemma shuffle_sat m self q : sat W self q ->
    exists self', sfmt_shuffle m self = Ok self' /\ exists q', sat W self' q'.
  Proof.
    intros (b & L & H & Hi & Hp). destruct (shuffle_ok m self b L H) as (self' & -> & L' & H' & I').
    exists self'. split; [reflexivity|]. exists (2 * (b + 156))%nat, (b + 156)%nat.
    rewrite I'. split; [exact L'|]. split; [exact H'|]. lia.
  Qed.

  Lemma adv_loop_ok m n : forall self b adv,
    length (sfmt_state self) = 624%nat -> sholds W (sfmt_state self) b -> adv / 624 = N.of_nat n ->
    exists self', sfmt_adv_loop m n self adv = Ok (self', adv mod 624) /\
      length (sfmt_state self') = 624%nat /\ sholds W (sfmt_state self') (b + 156 * n).
  Proof.
    induction n as [|n IH]; intros self b adv L H Hd; cbn [sfmt_adv_loop].
    - destruct (N.leb_spec 624 adv); [lia|]. exists self. rewrite N.mod_small by assumption.
      split; [reflexivity|]. split; [assumption|]. now rewrite Nat.mul_0_r, Nat.add_0_r.
    - destruct (N.leb_spec 624 adv); [|rewrite N.div_small in Hd by assumption; lia].
      destruct (shuffle_ok m self b L H) as (s1 & -> & L1 & H1 & _). cbn [rbind].
      destruct (IH s1 (b + 156)%nat (adv - 624) L1 H1) as (s2 & E & L2 & H2); [lia|].
      exists s2. split; [etransitivity; [exact E|]; do 2 f_equal; lia|]. split; [assumption|].
      now replace (b + 156 * S n)%nat with (b + 156 + 156 * n)%nat by lia.
  Qed.

  Definition sadv_sum (m : mode) (adv index : N) : N :=
    match m with NumPy => ((adv mod M32 * 2) mod M32 + index) mod M32
               | Numba => adv mod M32 * 2 + index end.

  Lemma advance_sat m self q adv : sat W self q ->
    exists self' q', sfmt_advance m self adv = Ok self' /\ sat W self' q' /\
      (2 * q' = 2 * q - N.to_nat (sfmt_index self) + N.to_nat (sadv_sum m adv (sfmt_index self)))%nat.
  Proof.
    intros (b & L & H & Hi & Hp). unfold sfmt_advance.
    assert (E : match m with NumPy => w32 (w32 (w32 adv * 2) + sfmt_index self)
                           | Numba => w64 (w64 (w32 adv * 2) + sfmt_index self) end
                = sadv_sum m adv (sfmt_index self)).
    { destruct m; [reflexivity|]. unfold sadv_sum. pose proof (w32_lt adv).
      rewrite (w64_small (w32 adv * 2)) by lia. rewrite w64_small; [reflexivity|]. lia. }
    rewrite E.
    assert (Ev : exists h, sadv_sum m adv (sfmt_index self) = 2 * h).
    { exists (sadv_sum m adv (sfmt_index self) / 2). unfold sadv_sum. destruct m; lia. }
    set (a := sadv_sum m adv (sfmt_index self)) in *. clearbody a. clear E.
    destruct Ev as [h Eh].
    destruct (adv_loop_ok m (N.to_nat (a / 624)) self b a L H) as (s' & El & L' & H'); [lia|].
    rewrite El. cbn [rmap].
    exists (mkSFMT (sfmt_state s') (w16 (a mod 624))), (2 * b + N.to_nat h)%nat.
    split; [reflexivity|]. split; [|lia].
    exists (b + 156 * N.to_nat (a / 624))%nat. cbn [sfmt_state sfmt_index].
    split; [assumption|]. split; [assumption|]. rewrite w16_small by lia. split; [lia|]. lia.
  Qed.
End Pos.

(** ** re_init *)
Lemma vec_of_words st i a b c d : a < M32 -> b < M32 -> c < M32 -> d < M32 ->
  aget st i = a -> aget st (i + 1)%nat = b -> aget st (i + 2)%nat = c -> aget st (i + 3)%nat = d ->
  vec st i (of_lanes a b c d).
Proof.
  intros Ha Hb Hc Hd E0 E1 E2 E3. destruct (lane_of_lanes a b c d Ha Hb Hc Hd) as (F0 & F1 & F2 & F3).
  unfold vec. rewrite E0, E1, E2, E3. auto.
Qed.

Lemma land_not_1 x : N.land (not32 x) 1 = if N.testbit x 0 then 0 else 1.
Proof.
  unfold not32. change 1 with (N.ones 1) at 1. rewrite N.land_ones. change (2^1) with 2.
  rewrite <- N.bit0_mod, N.lxor_spec. change (N.testbit 4294967295 0) with true.
  now destruct (N.testbit x 0).
Qed.

Lemma certified_lanes a b c d : a < M32 -> b < M32 -> c < M32 -> d < M32 ->
  certified (of_lanes a b c d) =
  of_lanes (N.lxor a (if odd_ones 32 (N.lxor (N.land a 1) (N.land d 0x13C9E684)) then 0 else 1)) b c d.
Proof.
  intros Ha Hb Hc Hd. unfold certified. rewrite odd_ones_parity by assumption.
  destruct (odd_ones 32 _); [now rewrite N.lxor_0_r|].
  assert (Ha' : N.lxor a 1 < M32) by (apply lxor_lt32; [assumption|reflexivity]).
  destruct (lane_of_lanes a b c d Ha Hb Hc Hd) as (E0 & E1 & E2 & E3).
  destruct (lane_of_lanes _ b c d Ha' Hb Hc Hd) as (F0 & F1 & F2 & F3).
  apply lanes_inj.
  - apply (lxor_lt _ 1 128); [now apply of_lanes_lt|reflexivity].
  - now apply of_lanes_lt.
  - rewrite lane_lxor, E0, F0. reflexivity.
  - rewrite lane_lxor, E1, F1. apply N.lxor_0_r.
  - rewrite lane_lxor, E2, F2. apply N.lxor_0_r.
  - rewrite lane_lxor, E3, F3. apply N.lxor_0_r.
Qed.

Lemma re_init_words seed v self : knuth_init seed v -> length (sfmt_state self) = 624%nat ->
  let self' := sfmt_re_init self seed in
  sfmt_index self' = 624 /\ length (sfmt_state self') = 624%nat /\
  aget (sfmt_state self') 0 =
    N.lxor (v 0%nat) (if odd_ones 32 (N.lxor (N.land (v 0%nat) 1) (N.land (v 3%nat) 0x13C9E684)) then 0 else 1) /\
  forall j, (0 < j < 624)%nat -> aget (sfmt_state self') j = v j.
Proof.
  intros Hv Hl. unfold sfmt_re_init.
  set (body := fun i '(seed, st) => _).
  set (P := fun (i : nat) (s : N * list N) =>
              fst s = v (i - 1)%nat /\ length (snd s) = 624%nat /\
              forall j, (j < i)%nat -> aget (snd s) j = v j).
  assert (HP : P (1 + 623)%nat (for_range 623 1 body (w32 seed, aset (sfmt_state self) 0 (w32 seed)))).
  { apply for_range_inv.
    - unfold P; cbn [fst snd]. rewrite aset_length. split; [|split; [assumption|]].
      + symmetry. apply (knuth_first _ _ Hv).
      + intros j Hj. replace j with 0%nat by lia. rewrite aget_aset_eq by lia.
        symmetry. apply (knuth_first _ _ Hv).
    - intros i [s st] Hi (H1 & H2 & H3). unfold P, body; cbn [fst snd] in *.
      assert (E : sfmt_init_word s i = v i).
      { destruct i as [|i]; [lia|]. rewrite (knuth_next _ _ Hv) by lia.
        unfold sfmt_init_word. rewrite H1. replace (S i - 1)%nat with i by lia.
        rewrite N.shiftr_div_pow2. reflexivity. }
      rewrite E. replace (S i - 1)%nat with i by lia. rewrite aset_length.
      split; [reflexivity|]. split; [assumption|].
      intros j Hj. rewrite aget_aset by lia.
      destruct (Nat.eqb_spec i j) as [->|]; [reflexivity|]. apply H3. lia. }
  destruct (for_range 623 1 body _) as [s st]. destruct HP as (H1 & H2 & H3). cbn [fst snd] in *.
  cbn [sfmt_state sfmt_index]. split; [reflexivity|]. split; [now rewrite aset_length|].
  assert (E0 : w32 seed = v 0%nat) by (symmetry; apply (knuth_first _ _ Hv)).
  split.
  - rewrite aget_aset_eq by lia. rewrite !H3 by lia. f_equal.
    rewrite land_not_1, fold_bit0, E0. reflexivity.
  - intros j Hj. rewrite aget_aset_ne by lia. apply H3. lia.
Qed.

Lemma re_init_sat seed W self : SFMT19937 seed W -> length (sfmt_state self) = 624%nat ->
  sat W (sfmt_re_init self seed) 312.
Proof.
  intros H Hl. destruct (sfmt19937_init _ _ H) as (v & Hv & W0 & W1).
  pose proof (re_init_words seed v self Hv Hl) as R. cbv zeta in R. destruct R as (Hi & L & E0 & E1).
  pose proof (knuth_lt seed v Hv) as B.
  exists 0%nat. split; [assumption|]. split; [|rewrite Hi; split; [lia|reflexivity]].
  split; [lia|]. intros j Hj. cbn [Nat.add].
  destruct j.
  - rewrite W0. unfold word128. cbn [Nat.mul Nat.add].
    rewrite certified_lanes by (apply B; lia).
    apply vec_of_words; cbn [Nat.add]; try (apply B; lia); try (apply E1; lia); [|exact E0].
    apply lxor_lt32; [apply B; lia|]. now destruct (odd_ones _ _).
  - rewrite W1 by lia. unfold word128. apply vec_of_words; try (apply B; lia); apply E1; lia.
Qed.

Lemma new_sat seed W junk : SFMT19937 seed W -> length junk = 624%nat -> sat W (sfmt_new junk seed) 312.
Proof. intros H Hl. now apply re_init_sat. Qed.

(** ** history *)
Lemma half64_lt W q : (forall k, W k < 2^128) -> half64 W q < 2^64.
Proof.
  intros H. unfold half64. destruct (Nat.even q).
  - apply N.mod_lt. discriminate.
  - apply N.div_lt_upper_bound; [discriminate|]. apply H.
Qed.

Lemma sfmt_history_aux m W : (forall s, SFMT19937 s (W s)) ->
  forall ops self seed pos, Forall (sfmt_op_valid m) ops ->
    sat (W seed) self (312 + pos) ->
    snd (sfmt_calls m self ops) = sfmt_abs_run W (seed, pos) ops.
Proof.
  intros HW ops. induction ops as [|op ops IH]; intros self seed pos Hv Ha; [reflexivity|].
  inversion Hv as [|? ? Hop Hv']; subst.
  pose proof (sfmt19937_rec _ _ (HW seed)) as Hr. pose proof (SFMT_lt _ _ (HW seed)) as Hb.
  cbn [sfmt_calls sfmt_abs_run].
  destruct (next_sat _ Hr Hb m self _ Ha) as (sn & En & Hn).
  change (half64 (W seed) (312 + pos)) with (sfmt19937_output (W seed) pos) in En.
  replace (S (312 + pos)) with (312 + S pos)%nat in Hn by lia.
  destruct op as [|n|mx|s|]; cbn [sfmt_call sfmt_abs sfmt_op_valid] in *.
  - rewrite En. specialize (IH sn seed (S pos) Hv' Hn).
    destruct (sfmt_calls m sn ops); cbn [snd] in *. now f_equal.
  - destruct (advance_sat _ Hr Hb m self _ n Ha) as (s' & q' & E & Ha' & Eq). rewrite E.
    assert (Eq' : q' = (312 + (pos + N.to_nat n))%nat).
    { destruct Ha as (b & _ & _ & Hi & Hp). unfold sadv_sum in Eq. change (2^32) with M32 in Hop.
      destruct m.
      - rewrite (N.mod_small n) in Eq by lia. rewrite (N.mod_small (n * 2)) in Eq by lia.
        rewrite N.mod_small in Eq by lia. lia.
      - rewrite (N.mod_small n) in Eq by lia. lia. }
    subst q'. specialize (IH s' seed (pos + N.to_nat n)%nat Hv' Ha').
    destruct (sfmt_calls m s' ops); cbn [snd] in *. now f_equal.
  - unfold sfmt_next_rand. rewrite En. cbn [rmap].
    specialize (IH sn seed (S pos) Hv' Hn).
    destruct (sfmt_calls m sn ops); cbn [snd] in *. f_equal; [|assumption].
    rewrite w64_small by (apply Hop). unfold umod. destruct (N.eqb_spec mx 0); [lia|]. reflexivity.
  - assert (Ha2 : sat (W s) (sfmt_re_init self s) (312 + 0)).
    { apply re_init_sat; [apply HW|]. destruct Ha as (b & L & _). exact L. }
    specialize (IH _ s 0%nat Hv' Ha2).
    destruct (sfmt_calls m (sfmt_re_init self s) ops); cbn [snd] in *. now f_equal.
  - contradiction.
Qed.

Lemma sfmt_history m W junk seed ops : (forall s, SFMT19937 s (W s)) ->
  length junk = 624%nat -> Forall (sfmt_op_valid m) ops ->
  snd (sfmt_calls m (sfmt_new junk seed) ops) = sfmt_abs_run W (seed, 0%nat) ops.
Proof. intros HW Hl Hv. apply sfmt_history_aux; auto. now apply new_sat. Qed.

Lemma sfmt_outputs_at W (Hr : srec W) (Hb : forall k, W k < 2^128) m k : forall self q, sat W self q ->
  sfmt_outputs_of m self k = map (fun i => OVal (half64 W (q + i))) (seq 0 k).
Proof.
  unfold sfmt_outputs_of. induction k as [|k IH]; intros self q Ha; [reflexivity|].
  cbn [repeat sfmt_calls sfmt_call]. destruct (next_sat _ Hr Hb m self _ Ha) as (s' & -> & H1).
  specialize (IH s' (S q) H1).
  destruct (sfmt_calls m s' (repeat SNext k)); cbn [snd] in *. rewrite IH.
  cbn [seq map]. rewrite <- seq_shift, map_map. f_equal.
  - do 2 f_equal. lia.
  - apply map_ext. intros i. do 2 f_equal. lia.
Qed.

Lemma sfmt_outputs m W junk seed k : SFMT19937 seed W -> length junk = 624%nat ->
  sfmt_outputs_of m (sfmt_new junk seed) k = map (fun i => OVal (sfmt19937_output W i)) (seq 0 k).
Proof.
  intros H Hl.
  rewrite (sfmt_outputs_at W (sfmt19937_rec _ _ H) (SFMT_lt _ _ H) m k _ _ (new_sat _ _ _ H Hl)).
  reflexivity.
Qed.

Lemma sfmt_ex_unique seed :
  exists W, SFMT19937 seed W /\ forall W', SFMT19937 seed W' -> forall k, W' k = W k.
Proof.
  exists (sfmt_seq seed). split; [apply sfmt_exists|].
  intros W' H. apply (sfmt_unique seed); [assumption|apply sfmt_exists].
Qed.

(** ** reachable objects *)
Definition SInv (self : sfmt) : Prop := exists seed q, sat (sfmt_seq seed) self q.

Lemma scall_inv m self op : SInv self -> SInv (fst (sfmt_call m self op)).
Proof.
  intros (seed & q & Ha). pose proof (sfmt19937_rec _ _ (sfmt_exists seed)) as Hr.
  pose proof (SFMT_lt _ _ (sfmt_exists seed)) as Hb.
  destruct op; cbn [sfmt_call].
  - destruct (next_sat _ Hr Hb m self _ Ha) as (s' & -> & H). now exists seed, (S q).
  - destruct (advance_sat _ Hr Hb m self _ adv Ha) as (s' & q' & -> & H & _). now exists seed, q'.
  - unfold sfmt_next_rand. destruct (next_sat _ Hr Hb m self _ Ha) as (s' & -> & H). now exists seed, (S q).
  - exists seed0, 312%nat. apply re_init_sat; [apply sfmt_exists|]. destruct Ha as (b & L & _). exact L.
  - destruct (shuffle_sat _ Hr Hb m self _ Ha) as (s' & -> & q' & H). now exists seed, q'.
Qed.
Lemma scalls_inv m ops : forall self, SInv self -> SInv (fst (sfmt_calls m self ops)).
Proof.
  induction ops as [|op ops IH]; intros self H; [exact H|]. cbn [sfmt_calls].
  pose proof (scall_inv m self op H) as H'. destruct (sfmt_call m self op) as [s' o].
  specialize (IH s' H'). now destruct (sfmt_calls m s' ops).
Qed.
Lemma sreached_inv m self : sfmt_reached m self -> SInv self.
Proof.
  intros (junk & seed & ops & Hl & ->). apply scalls_inv.
  exists seed, 312%nat. apply new_sat; [apply sfmt_exists|assumption].
Qed.

(** ** advance *)
Lemma iter_next_sat W (Hr : srec W) (Hb : forall k, W k < 2^128) m n self q : sat W self q ->
  sat W (N.iter n (sfmt_next_state m) self) (q + N.to_nat n).
Proof.
  intros Ha. induction n as [|n IH] using N.peano_ind; [now rewrite Nat.add_0_r|].
  rewrite N.iter_succ. unfold sfmt_next_state at 1. cbn [sfmt_call].
  destruct (next_sat _ Hr Hb m _ _ IH) as (s' & -> & H).
  now replace (q + N.to_nat (N.succ n))%nat with (S (q + N.to_nat n)) by lia.
Qed.

Lemma sfmt_advance_skips m self n : sfmt_reached m self -> n < 2^32 ->
  (m = NumPy -> 2 * n + sfmt_index self < 2^32) ->
  exists self', sfmt_advance m self n = Ok self' /\
    forall k, sfmt_outputs_of m self' k = sfmt_outputs_of m (N.iter n (sfmt_next_state m) self) k.
Proof.
  intros Hre Hn Hw. apply sreached_inv in Hre as (seed & q & Ha).
  pose proof (sfmt19937_rec _ _ (sfmt_exists seed)) as Hr.
  pose proof (SFMT_lt _ _ (sfmt_exists seed)) as Hb.
  destruct (advance_sat _ Hr Hb m self _ n Ha) as (s' & q' & E & Ha' & Eq). exists s'. split; [exact E|].
  intros k. change (2^32) with M32 in *.
  assert (q' = q + N.to_nat n)%nat.
  { destruct Ha as (b & _ & _ & Hi & Hp). unfold sadv_sum in Eq. rewrite (N.mod_small n) in Eq by assumption.
    destruct m; [|lia]. specialize (Hw eq_refl).
    rewrite (N.mod_small (n * 2)) in Eq by lia. rewrite N.mod_small in Eq by lia. lia. }
  subst q'.
  rewrite (sfmt_outputs_at _ Hr Hb m k _ _ Ha').
  rewrite (sfmt_outputs_at _ Hr Hb m k _ _ (iter_next_sat _ Hr Hb m n _ _ Ha)). reflexivity.
Qed.

(** ** no power-of-two period *)
Lemma shr_lanes_lxor k a b : shr_lanes k (N.lxor a b) = N.lxor (shr_lanes k a) (shr_lanes k b).
Proof.
  assert (L : forall w, shr_lanes k w < 2^128).
  { intros w. unfold shr_lanes. rewrite <- !N.shiftr_div_pow2. apply of_lanes_lt; apply shiftr_lt32, lane_lt. }
  apply lanes_inj; [apply L|apply (lxor_lt _ _ 128); apply L| | | | ];
    rewrite ?lane_lxor, !lane_shr_lanes by lia; rewrite lane_lxor; apply N.shiftr_lxor.
Qed.
Lemma shl_lanes_lxor k a b : shl_lanes k (N.lxor a b) = N.lxor (shl_lanes k a) (shl_lanes k b).
Proof.
  assert (L : forall w, shl_lanes k w < 2^128).
  { intros w. unfold shl_lanes. apply of_lanes_lt; apply N.mod_lt; discriminate. }
  apply lanes_inj; [apply L|apply (lxor_lt _ _ 128); apply L| | | | ];
    rewrite ?lane_lxor, !lane_shl_lanes by lia; rewrite lane_lxor, N.shiftl_lxor; apply w32_lxor.
Qed.
Lemma shl128_lxor a b :
  N.lxor a b * 2^8 mod 2^128 = N.lxor (a * 2^8 mod 2^128) (b * 2^8 mod 2^128).
Proof. rewrite <- !N.shiftl_mul_pow2, N.shiftl_lxor. apply linear_mod_pow2. Qed.
Lemma shr128_lxor a b : N.lxor a b / 2^8 = N.lxor (a / 2^8) (b / 2^8).
Proof. rewrite <- !N.shiftr_div_pow2. apply N.shiftr_lxor. Qed.

Lemma recursion_lxor a b c d a' b' c' d' :
  sfmt_recursion (N.lxor a a') (N.lxor b b') (N.lxor c c') (N.lxor d d')
  = N.lxor (sfmt_recursion a b c d) (sfmt_recursion a' b' c' d').
Proof.
  unfold sfmt_recursion.
  rewrite shr_lanes_lxor, shl_lanes_lxor, shl128_lxor, shr128_lxor, land_lxor_distr.
  xor_ac.
Qed.

Definition fixed_map (c : N) : N :=
  N.lxor (c * 2^8 mod 2^128) (N.lxor (N.land (shr_lanes 11 c) SFMT_MSK) (N.lxor (c / 2^8) (shl_lanes 18 c))).
Lemma fixed_map_linear : linear fixed_map.
Proof.
  intros x y. unfold fixed_map.
  rewrite shr_lanes_lxor, shl_lanes_lxor, shl128_lxor, shr128_lxor, land_lxor_distr. xor_ac.
Qed.
Lemma fixed_map_0 c : c < 2^128 -> fixed_map c = 0 -> c = 0.
Proof.
  apply (kernel_trivial 128 fixed_map sfmt_fixed_inv fixed_map_linear). now vm_compute.
Qed.

Lemma s_no_pow2_period k : forall z, srec z -> (forall i, z i < 2^128) ->
  (forall i, z (i + 2 ^ k)%nat = z i) -> forall i, z i = 0.
Proof.
  induction k as [|k IH]; intros z Hr Hb Hp.
  - assert (C : forall i, z i = z 0%nat).
    { induction i; [reflexivity|]. rewrite <- IHi, <- (Hp i). f_equal. simpl. lia. }
    intros i. rewrite C. apply fixed_map_0; [apply Hb|].
    specialize (Hr 0%nat).
    rewrite (C (0 + 156)%nat), (C (0 + 122)%nat), (C (0 + 154)%nat), (C (0 + 155)%nat) in Hr.
    unfold sfmt_recursion in Hr. fold (fixed_map (z 0%nat)) in Hr.
    apply (f_equal (N.lxor (z 0%nat))) in Hr.
    rewrite <- N.lxor_assoc, N.lxor_nilpotent, N.lxor_0_l in Hr. now symmetry.
  - apply IH; auto.
    intros i. apply N.lxor_eq.
    apply (IH (fun i => N.lxor (z (i + 2 ^ k)%nat) (z i))).
    + intros j. cbn beta.
      replace (j + 156 + 2 ^ k)%nat with (j + 2^k + 156)%nat by lia.
      replace (j + 122 + 2 ^ k)%nat with (j + 2^k + 122)%nat by lia.
      replace (j + 154 + 2 ^ k)%nat with (j + 2^k + 154)%nat by lia.
      replace (j + 155 + 2 ^ k)%nat with (j + 2^k + 155)%nat by lia.
      rewrite (Hr j), (Hr (j + 2^k)%nat). symmetry. apply recursion_lxor.
    + intros j. apply (lxor_lt _ _ 128); apply Hb.
    + intros j. cbn beta. replace (j + 2^k + 2^k)%nat with (j + 2 ^ S k)%nat by (simpl; lia).
      rewrite Hp. apply N.lxor_comm.
Qed.

Lemma shl8_0 w : w < 2^128 -> N.lxor w (w * 2^8 mod 2^128) = 0 -> w = 0.
Proof.
  intros Hw H. apply N.lxor_eq in H. rewrite <- N.shiftl_mul_pow2, <- N.land_ones in H.
  apply N.bits_inj; intro n. rewrite N.bits_0.
  remember (N.to_nat n) as d eqn:Ed. revert n Ed.
  induction d as [d IH] using (well_founded_induction lt_wf). intros n Ed.
  rewrite H, N.land_spec, shiftl_bits.
  destruct (N.leb_spec 8 n); [|reflexivity]. cbn [andb].
  rewrite (IH (N.to_nat (n - 8))%nat) by lia. reflexivity.
Qed.

Lemma s_zero_back W p : srec W -> (forall k, W k < 2^128) -> (forall i, W (p + i)%nat = 0) -> forall i, W i = 0.
Proof.
  intros Hr Hb. induction p as [|p IH]; intros Hz; [exact Hz|].
  apply IH. intros i.
  destruct i as [|i]; [|rewrite <- (Hz i); f_equal; lia].
  rewrite Nat.add_0_r. apply shl8_0; [apply Hb|].
  pose proof (Hr p) as H.
  replace (p + 156)%nat with (S p + 155)%nat in H by lia.
  replace (p + 122)%nat with (S p + 121)%nat in H by lia.
  replace (p + 154)%nat with (S p + 153)%nat in H by lia.
  replace (p + 155)%nat with (S p + 154)%nat in H by lia.
  rewrite !Hz in H. unfold sfmt_recursion in H.
  change (N.land (shr_lanes 11 0) SFMT_MSK) with 0 in H. change (0 / 2^8) with 0 in H.
  change (shl_lanes 18 0) with 0 in H. rewrite !N.lxor_0_r in H. now symmetry.
Qed.

Lemma SFMT_no_pow2_period seed W k p : SFMT19937 seed W ->
  ~ (forall i, W (p + i + 2^k)%nat = W (p + i)%nat).
Proof.
  intros HW Hp. pose proof (sfmt19937_rec _ _ HW) as Hr. pose proof (SFMT_lt _ _ HW) as Hb.
  assert (Z : forall i, W (p + i)%nat = 0).
  { apply (s_no_pow2_period k (fun i => W (p + i)%nat)).
    - intros i. rewrite !Nat.add_assoc. apply Hr.
    - intros i. apply Hb.
    - intros i. rewrite <- (Hp i). f_equal. lia. }
  pose proof (s_zero_back W p Hr Hb Z 0%nat) as W0.
  destruct (sfmt19937_init _ _ HW) as (v & _ & E & _). rewrite W0 in E.
  pose proof (certified_odd (word128 v 0)) as C. rewrite <- E in C. discriminate C.
Qed.

(** Two runs of 314 equal outputs at an even distance give equal words for ever. *)
Lemma halves_determine W (Hr : srec W) (Hb : forall k, W k < 2^128) q D :
  (forall i, (i < 314)%nat -> half64 W (q + i) = half64 W (q + 2 * D + i)) ->
  exists p, forall i, W (p + i + D)%nat = W (p + i)%nat.
Proof.
  intros H. exists ((q + 1) / 2)%nat. set (p := ((q + 1) / 2)%nat).
  assert (Hp : (q <= 2 * p <= q + 1)%nat) by (unfold p; lia). clearbody p.
  assert (B : forall i, (i < 156)%nat -> W (p + i + D)%nat = W (p + i)%nat).
  { intros i Hi.
    pose proof (H (2 * p - q + 2 * i)%nat ltac:(lia)) as E0.
    pose proof (H (2 * p - q + 2 * i + 1)%nat ltac:(lia)) as E1.
    replace (q + (2 * p - q + 2 * i))%nat with (2 * (p + i))%nat in E0 by lia.
    replace (q + 2 * D + (2 * p - q + 2 * i))%nat with (2 * (p + i + D))%nat in E0 by lia.
    replace (q + (2 * p - q + 2 * i + 1))%nat with (S (2 * (p + i)))%nat in E1 by lia.
    replace (q + 2 * D + (2 * p - q + 2 * i + 1))%nat with (S (2 * (p + i + D)))%nat in E1 by lia.
    unfold half64 in E0, E1.
    assert (Ev : forall a, Nat.even (2 * a) = true) by (intros a; apply Nat.even_spec; now exists a).
    assert (Od : forall a, Nat.even (S (2 * a)) = false).
    { intros a. rewrite Nat.even_succ, <- Nat.negb_even, Ev. reflexivity. }
    rewrite !Ev in E0. rewrite !Od in E1. rewrite !Nat.div2_double in E0. rewrite !Nat.div2_succ_double in E1.
    rewrite (N.div_mod (W (p + i + D)%nat) (2^64)) by discriminate.
    rewrite (N.div_mod (W (p + i)%nat) (2^64)) by discriminate. now rewrite E0, E1. }
  intros i. induction i as [i IH] using (well_founded_induction lt_wf).
  destruct (Nat.lt_ge_cases i 156) as [Hi|Hi]; [now apply B|].
  pose proof (Hr (p + (i - 156))%nat) as H1. pose proof (Hr (p + (i - 156) + D)%nat) as H2.
  replace (p + i + D)%nat with (p + (i - 156) + D + 156)%nat by lia.
  replace (p + i)%nat with (p + (i - 156) + 156)%nat by lia. rewrite H1, H2.
  replace (p + (i - 156) + D + 122)%nat with (p + (i - 34) + D)%nat by lia.
  replace (p + (i - 156) + D + 154)%nat with (p + (i - 2) + D)%nat by lia.
  replace (p + (i - 156) + D + 155)%nat with (p + (i - 1) + D)%nat by lia.
  replace (p + (i - 156) + 122)%nat with (p + (i - 34))%nat by lia.
  replace (p + (i - 156) + 154)%nat with (p + (i - 2))%nat by lia.
  replace (p + (i - 156) + 155)%nat with (p + (i - 1))%nat by lia.
  rewrite !IH by lia. reflexivity.
Qed.

Lemma pow2_nat e r : N.to_nat (2 ^ e) = r -> exists k, r = (2 ^ k)%nat.
Proof. intros <-. exists (N.to_nat e). exact (N2Nat.inj_pow 2 e). Qed.

Lemma nth_outputs W q k i : (i < k)%nat ->
  nth i (map (fun i => OVal (half64 W (q + i))) (seq 0 k)) ONone = OVal (half64 W (q + i)).
Proof.
  intros H. rewrite (nth_indep _ ONone (OVal (half64 W (q + 0)))) by (rewrite map_length, seq_length; assumption).
  rewrite (map_nth (fun i => OVal (half64 W (q + i)))). now rewrite seq_nth by assumption.
Qed.

Lemma sfmt_advance_wraps self n : sfmt_reached NumPy self -> n < 2^32 ->
  2^32 <= 2 * n + sfmt_index self ->
  exists self' k, sfmt_advance NumPy self n = Ok self' /\
    sfmt_outputs_of NumPy self' k <> sfmt_outputs_of NumPy (N.iter n (sfmt_next_state NumPy) self) k.
Proof.
  intros Hre Hn Hw. apply sreached_inv in Hre as (seed & q & Ha).
  pose proof (sfmt19937_rec _ _ (sfmt_exists seed)) as Hr.
  pose proof (SFMT_lt _ _ (sfmt_exists seed)) as Hb.
  destruct (advance_sat _ Hr Hb NumPy self _ n Ha) as (s' & q' & E & Ha' & Eq). exists s'.
  change (2^32) with M32 in *.
  pose proof Ha as (b & _ & _ & Hi & Hp).
  assert (T : exists D k, (q + N.to_nat n = q' + 2 * D)%nat /\ D = (2 ^ k)%nat).
  { unfold sadv_sum in Eq. rewrite (N.mod_small n) in Eq by assumption.
    assert (T : (n * 2) mod M32 + sfmt_index self < M32 \/ M32 <= (n * 2) mod M32 + sfmt_index self) by lia.
    assert (T1 : 2 * n + sfmt_index self - ((n * 2) mod M32 + sfmt_index self) mod M32 = M32 \/
                 2 * n + sfmt_index self - ((n * 2) mod M32 + sfmt_index self) mod M32 = 2 * M32) by lia.
    destruct T1 as [T1|T1].
    - exists (N.to_nat (2^30)). change (2^30) with 1073741824. destruct (pow2_nat 30 _ eq_refl) as (k & Ek).
      exists k. split; [lia|exact Ek].
    - exists (N.to_nat (2^31)). change (2^31) with 2147483648. destruct (pow2_nat 31 _ eq_refl) as (k & Ek).
      exists k. split; [lia|exact Ek]. }
  destruct T as (D & k & T & HD).
  pose proof (iter_next_sat _ Hr Hb NumPy n _ _ Ha) as Hc. rewrite T in Hc.
  exists 314%nat. split; [exact E|].
  rewrite (sfmt_outputs_at _ Hr Hb _ _ _ _ Ha'), (sfmt_outputs_at _ Hr Hb _ _ _ _ Hc).
  intros C.
  destruct (halves_determine _ Hr Hb q' D) as (p & Hper).
  { intros i Hi'. apply (f_equal (fun l => nth i l ONone)) in C.
    rewrite !nth_outputs in C by assumption. now inversion C. }
  rewrite HD in Hper. exact (SFMT_no_pow2_period seed _ k p (sfmt_exists seed) Hper).
Qed.

(** ** re_init, bounds, bounded rand *)
Lemma sfmt_re_init_fresh m self junk seed : sfmt_reached m self -> length junk = 624%nat ->
  sfmt_re_init self seed = sfmt_new junk seed.
Proof.
  intros Hre Hl. apply sreached_inv in Hre as (s & p & b & L & _).
  unfold sfmt_new.
  destruct (re_init_words seed _ self (knuth_exists seed) L) as (I1 & L1 & Z1 & R1).
  destruct (re_init_words seed _ (mkSFMT junk 624) (knuth_exists seed) Hl) as (I2 & L2 & Z2 & R2).
  destruct (sfmt_re_init self seed) as [s1 i1], (sfmt_re_init (mkSFMT junk 624) seed) as [s2 i2].
  cbn [sfmt_state sfmt_index] in *. f_equal; [|congruence].
  apply list_eq_aget; [congruence|]. intros i Hi. destruct i; [congruence|].
  rewrite R1, R2 by lia. reflexivity.
Qed.

Lemma sfmt_re_init_same_future m self junk seed :
  sfmt_reached m self -> length junk = 624%nat ->
  sfmt_re_init self seed = sfmt_new junk seed /\
  forall m' ops, snd (sfmt_calls m' (sfmt_re_init self seed) ops) = snd (sfmt_calls m' (sfmt_new junk seed) ops).
Proof.
  intros H Hl. pose proof (sfmt_re_init_fresh m self junk seed H Hl) as E.
  split; [exact E|]. intros. now rewrite E.
Qed.

Lemma sat_words W self q : (forall k, W k < 2^128) -> sat W self q ->
  Forall (fun w => w < M32) (sfmt_state self).
Proof.
  intros Hb (b & L & [_ H] & _). apply Forall_forall. intros w Hw.
  apply (In_nth _ _ 0) in Hw as (j & Hj & <-). change (nth j (sfmt_state self) 0) with (aget (sfmt_state self) j).
  rewrite L in Hj.
  pose proof (H (j / 4)%nat ltac:(lia)) as (A0 & A1 & A2 & A3).
  assert (C : (j = 4 * (j / 4) \/ j = 4 * (j / 4) + 1 \/ j = 4 * (j / 4) + 2 \/ j = 4 * (j / 4) + 3)%nat) by lia.
  destruct C as [C|[C|[C|C]]]; rewrite C; rewrite ?A0, ?A1, ?A2, ?A3; apply lane_lt.
Qed.

Lemma sfmt_in_bounds m self : sfmt_reached m self ->
  length (sfmt_state self) = 624%nat /\ sfmt_index self <= 624 /\ N.even (sfmt_index self) = true /\
  Forall (fun w => w < 2^32) (sfmt_state self) /\
  (exists self', sfmt_shuffle m self = Ok self') /\
  (exists r, sfmt_next m self = Ok r).
Proof.
  intros Hre. apply sreached_inv in Hre as (s & q & Ha).
  pose proof (sfmt19937_rec _ _ (sfmt_exists s)) as Hr. pose proof (SFMT_lt _ _ (sfmt_exists s)) as Hb.
  pose proof Ha as (b & L & H & Hi & Hp).
  split; [assumption|]. split; [assumption|]. split; [|split; [|split]].
  - apply N.even_spec. exists (sfmt_index self / 2). lia.
  - exact (sat_words _ _ _ Hb Ha).
  - destruct (shuffle_sat _ Hr Hb m self _ Ha) as (s' & -> & _). eauto.
  - destruct (next_sat _ Hr Hb m self _ Ha) as (s' & -> & _). eauto.
Qed.

Lemma sfmt_shuffle_frame st extra : length st = 624%nat ->
  Forall (fun w => w < 2^32) st -> Forall (fun w => w < 2^32) extra ->
  sfmt_shuffle_py (st ++ extra) = sfmt_shuffle_py st ++ extra /\
  sfmt_shuffle_ir (st ++ extra) = Ok (sfmt_shuffle_py st ++ extra).
Proof.
  intros L H He. rewrite <- (py_frame st extra L H He) . split; [reflexivity|].
  apply ir_equals_py; [rewrite app_length; lia|]. apply Forall_app. now split.
Qed.

Lemma sfmt_ir_equals_py st : length st = 624%nat -> Forall (fun w => w < 2^32) st ->
  sfmt_shuffle_ir st = Ok (sfmt_shuffle_py st).
Proof. intros L H. apply ir_equals_py; [lia|exact H]. Qed.

Lemma sfmt_certified junk seed : length junk = 624%nat ->
  exists v, knuth_init seed v /\
  let st := sfmt_state (sfmt_new junk seed) in
  odd_ones 128 (N.land (word128 (aget st) 0) SFMT_PARITY) = true /\
  (aget st 0 = v 0%nat \/ aget st 0 = N.lxor (v 0%nat) 1) /\
  (odd_ones 128 (N.land (word128 v 0) SFMT_PARITY) = true -> aget st 0 = v 0%nat) /\
  forall j, (0 < j < 624)%nat -> aget st j = v j.
Proof.
  intros Hl. exists (kword seed). split; [apply knuth_exists|]. cbv zeta.
  pose proof (knuth_exists seed) as Hv. pose proof (knuth_lt _ _ Hv) as B.
  destruct (re_init_words seed _ (mkSFMT junk 624) Hv Hl) as (I1 & L1 & Z1 & R1).
  unfold sfmt_new. set (self' := sfmt_re_init (mkSFMT junk 624) seed) in *. clearbody self'.
  set (st := sfmt_state self') in *. clearbody st.
  split; [|split; [|split; [|assumption]]].
  - replace (word128 (aget st) 0) with (certified (word128 (kword seed) 0)); [apply certified_odd|].
    unfold word128. cbn [Nat.mul Nat.add]. rewrite certified_lanes by (apply B; lia).
    rewrite Z1, !R1 by lia. reflexivity.
  - rewrite Z1. destruct (odd_ones 32 _); [left; apply N.lxor_0_r|right; reflexivity].
  - unfold word128. cbn [Nat.mul Nat.add]. rewrite odd_ones_parity by (apply B; lia). intros E.
    rewrite Z1, E. apply N.lxor_0_r.
Qed.

Lemma sfmt_next_rand_range m self maximum : sfmt_reached m self -> 1 <= maximum < 2^64 ->
  exists self' r, sfmt_next m self = Ok (self', r) /\
    sfmt_next_rand m self maximum = Ok (self', Ok (r mod maximum)) /\ r mod maximum < maximum.
Proof.
  intros Hre Hm. destruct (sfmt_in_bounds m self Hre) as (_ & _ & _ & _ & _ & [[self' r] E]).
  exists self', r. split; [assumption|]. unfold sfmt_next_rand. rewrite E. cbn [rmap].
  rewrite w64_small by (apply Hm). unfold umod. destruct (N.eqb_spec maximum 0); [lia|].
  split; [reflexivity|]. apply N.mod_lt. lia.
Qed.

Lemma aget_app_l st extra i : (i < length st)%nat -> aget (st ++ extra) i = aget st i.
Proof. intros H. unfold aget. now apply app_nth1. Qed.

Lemma shuffle_eq m self : sfmt_shuffle_ir (sfmt_state self) = Ok (sfmt_shuffle_py (sfmt_state self)) ->
  sfmt_shuffle m self = Ok (mkSFMT (sfmt_shuffle_py (sfmt_state self)) 0).
Proof.
  intros H. unfold sfmt_shuffle. rewrite H. generalize (sfmt_shuffle_py (sfmt_state self)).
  intros l. now destruct m.
Qed.

Lemma sfmt_in_bounds_frame m self extra : sfmt_reached m self -> Forall (fun w => w < 2^32) extra ->
  let wide s := mkSFMT (sfmt_state s ++ extra) (sfmt_index s) in
  sfmt_shuffle m (wide self) = rmap wide (sfmt_shuffle m self) /\
  sfmt_next m (wide self) = rmap (fun '(s, r) => (wide s, r)) (sfmt_next m self).
Proof.
  intros Hre He wide. destruct (sfmt_in_bounds m self Hre) as (L & Hi & Hev & HF & (s1 & E1) & (r & E2)).
  destruct (sfmt_shuffle_frame _ _ L HF He) as (F1 & F2).
  assert (S : sfmt_shuffle m (wide self) = rmap wide (sfmt_shuffle m self)).
  { rewrite (shuffle_eq m self (sfmt_ir_equals_py _ L HF)).
    rewrite (shuffle_eq m (wide self)) by (rewrite <- F1 in F2; exact F2).
    cbn [rmap]. unfold wide at 2. cbn [sfmt_state sfmt_index]. f_equal. f_equal. exact F1. }
  split; [exact S|]. unfold sfmt_next. cbn [sfmt_index wide].
  destruct (N.eqb_spec (sfmt_index self) 624) as [E|E].
  - rewrite S, E1. cbn [rmap]. f_equal. unfold wide. cbn [sfmt_state sfmt_index].
    assert (Ls : length (sfmt_state s1) = 624%nat /\ sfmt_index s1 = 0).
    { clear - Hre E1. apply sreached_inv in Hre as (s & q & b & L & H & _).
      destruct (shuffle_ok _ (sfmt19937_rec _ _ (sfmt_exists s)) (SFMT_lt _ _ (sfmt_exists s)) m self b L H)
        as (s' & E & L' & _ & I). rewrite E in E1. inversion E1; subst. auto. }
    destruct Ls as (Ls & Is). rewrite Is. rewrite !aget_app_l by (rewrite Ls; cbn; lia). reflexivity.
  - cbn [rmap]. f_equal. unfold wide. cbn [sfmt_state sfmt_index].
    apply N.even_spec in Hev as [h Hh].
    rewrite (w16_small (sfmt_index self + 1)) by lia.
    rewrite !aget_app_l by (rewrite L; lia). reflexivity.
Qed.
