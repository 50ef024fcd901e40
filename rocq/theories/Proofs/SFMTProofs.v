(** Lemmas about the two shuffles of Model/SFMT.v. *)
From Coq Require Import NArith ZArith List Bool Lia Btauto.
From Coq Require Import ZifyBool ZifyNat ZifyN.
From Verif Require Import Base.Word Base.WordLemmas Model.SFMT Spec.SFMTSpec Proofs.GF2.
Import ListNotations.
Open Scope N_scope.

Local Notation M32 := 4294967296.

(** ** lanes *)
Lemma lane_bits l w n : N.testbit (lane l w) n = (n <? 32) && N.testbit w (n + 32 * l).
Proof.
  unfold lane. rewrite <- N.shiftr_div_pow2. change (2^32) with M32.
  change (N.shiftr w (32 * l) mod M32) with (w32 (N.shiftr w (32 * l))).
  rewrite w32_bits, shiftr_bits. reflexivity.
Qed.
Lemma lane_lt l w : lane l w < M32.
Proof. unfold lane. apply N.mod_lt. discriminate. Qed.
Lemma lane_lxor l v w : lane l (N.lxor v w) = N.lxor (lane l v) (lane l w).
Proof. apply N.bits_inj; intro n. rewrite N.lxor_spec, !lane_bits, N.lxor_spec. btauto. Qed.
Lemma lane_land l v w : lane l (N.land v w) = N.land (lane l v) (lane l w).
Proof. apply N.bits_inj; intro n. rewrite N.land_spec, !lane_bits, N.land_spec. btauto. Qed.

Lemma lane_of_lanes a b c d : a < M32 -> b < M32 -> c < M32 -> d < M32 ->
  lane 0 (of_lanes a b c d) = a /\ lane 1 (of_lanes a b c d) = b /\
  lane 2 (of_lanes a b c d) = c /\ lane 3 (of_lanes a b c d) = d.
Proof.
  intros. unfold lane, of_lanes.
  change (2^(32*0)) with 1. change (2^(32*1)) with M32. change (2^(32*2)) with 18446744073709551616.
  change (2^(32*3)) with 79228162514264337593543950336.
  change (2^32) with M32. change (2^64) with 18446744073709551616. change (2^96) with 79228162514264337593543950336.
  repeat split; lia.
Qed.
Lemma of_lanes_lt a b c d : a < M32 -> b < M32 -> c < M32 -> d < M32 -> of_lanes a b c d < 2^128.
Proof.
  intros. unfold of_lanes. change (2^32) with M32. change (2^64) with 18446744073709551616.
  change (2^96) with 79228162514264337593543950336.
  change (2^128) with 340282366920938463463374607431768211456. lia.
Qed.

(** 128-bit words are determined by their lanes. *)
Lemma lanes_inj v w : v < 2^128 -> w < 2^128 ->
  lane 0 v = lane 0 w -> lane 1 v = lane 1 w -> lane 2 v = lane 2 w -> lane 3 v = lane 3 w -> v = w.
Proof.
  intros Hv Hw H0 H1 H2 H3. apply N.bits_inj; intro n.
  assert (L : forall l k, lane l v = lane l w -> k < 32 -> N.testbit v (k + 32 * l) = N.testbit w (k + 32 * l)).
  { intros l k E Hk. apply (f_equal (fun z => N.testbit z k)) in E. rewrite !lane_bits in E.
    destruct (N.ltb_spec k 32); [exact E|lia]. }
  destruct (N.lt_ge_cases n 128) as [Hn|Hn].
  - assert (n / 32 < 4) by lia. replace n with (n mod 32 + 32 * (n / 32)) by lia.
    assert (n mod 32 < 32) by lia.
    assert (C : n / 32 = 0 \/ n / 32 = 1 \/ n / 32 = 2 \/ n / 32 = 3) by lia.
    destruct C as [C|[C|[C|C]]]; rewrite C; apply L; auto.
  - rewrite !(bits_above_lt _ 128) by assumption. reflexivity.
Qed.

Lemma lane_shl8 l w : l < 4 -> lane l (w * 2^8 mod 2^128) =
  w32 (N.lor (N.shiftl (lane l w) 8) (if l =? 0 then 0 else N.shiftr (lane (l - 1) w) 24)).
Proof.
  intros Hl. rewrite <- N.shiftl_mul_pow2, <- N.land_ones.
  apply N.bits_inj; intro n. rewrite lane_bits, w32_bits.
  destruct (N.ltb_spec n 32) as [Hn|]; [|reflexivity]. cbn [andb].
  rewrite N.land_spec, N.lor_spec, !shiftl_bits.
  rewrite N.ones_spec_low by lia. rewrite andb_true_r, lane_bits.
  replace (N.testbit (if l =? 0 then 0 else N.shiftr (lane (l - 1) w) 24) n)
    with (negb (l =? 0) && ((n + 24 <? 32) && N.testbit w (n + 24 + 32 * (l - 1)))).
  2: { destruct (l =? 0); cbn [negb andb]; [now rewrite N.bits_0|]. now rewrite shiftr_bits, lane_bits. }
  destruct (N.leb_spec 8 n).
  - destruct (N.leb_spec 8 (n + 32 * l)); [|lia]. destruct (N.ltb_spec (n - 8) 32); [|lia].
    destruct (N.ltb_spec (n + 24) 32); [lia|]. cbn [andb]. rewrite andb_false_r, orb_false_r. f_equal; lia.
  - cbn [andb orb]. destruct (N.ltb_spec (n + 24) 32); [|lia].
    destruct (N.eqb_spec l 0) as [->|]; cbn [negb andb].
    + destruct (N.leb_spec 8 (n + 32 * 0)); [lia|reflexivity].
    + destruct (N.leb_spec 8 (n + 32 * l)); [|lia]. cbn [andb]. f_equal. lia.
Qed.

Lemma lane_shr8 l w : l < 4 -> w < 2^128 -> lane l (w / 2^8) =
  w32 (N.lor (if l =? 3 then 0 else N.shiftl (lane (l + 1) w) 24) (N.shiftr (lane l w) 8)).
Proof.
  intros Hl Hw. rewrite <- N.shiftr_div_pow2.
  apply N.bits_inj; intro n. rewrite lane_bits, w32_bits.
  destruct (N.ltb_spec n 32) as [Hn|]; [|reflexivity]. cbn [andb].
  rewrite N.lor_spec, !shiftr_bits, lane_bits.
  replace (N.testbit (if l =? 3 then 0 else N.shiftl (lane (l + 1) w) 24) n)
    with (negb (l =? 3) && ((24 <=? n) && ((n - 24 <? 32) && N.testbit w (n - 24 + 32 * (l + 1))))).
  2: { destruct (l =? 3); cbn [negb andb]; [now rewrite N.bits_0|]. now rewrite shiftl_bits, lane_bits. }
  destruct (N.leb_spec 24 n).
  - destruct (N.ltb_spec (n + 8) 32); [lia|]. destruct (N.ltb_spec (n - 24) 32); [|lia]. cbn [andb].
    rewrite orb_false_r.
    destruct (N.eqb_spec l 3) as [->|]; cbn [negb andb].
    + apply (bits_above_lt _ 128); [assumption|lia].
    + f_equal. lia.
  - destruct (N.ltb_spec (n + 8) 32); [|lia]. cbn [andb]. rewrite andb_false_r. cbn [orb]. f_equal. lia.
Qed.

Lemma of_lanes_pick a b c d l : a < M32 -> b < M32 -> c < M32 -> d < M32 -> l < 4 ->
  lane l (of_lanes a b c d) = nth (N.to_nat l) [a; b; c; d] 0.
Proof.
  intros Ha Hb Hc Hd Hl. destruct (lane_of_lanes a b c d Ha Hb Hc Hd) as (E0 & E1 & E2 & E3).
  assert (C : l = 0 \/ l = 1 \/ l = 2 \/ l = 3) by lia.
  destruct C as [->|[->|[->| ->]]]; assumption.
Qed.

Lemma lane_shr_lanes k l w : l < 4 -> lane l (shr_lanes k w) = N.shiftr (lane l w) k.
Proof.
  intros Hl. unfold shr_lanes.
  assert (B : forall l, lane l w / 2^k < M32).
  { intros l'. rewrite <- N.shiftr_div_pow2. apply shiftr_lt32, lane_lt. }
  rewrite of_lanes_pick by (auto || lia). rewrite N.shiftr_div_pow2.
  assert (C : l = 0 \/ l = 1 \/ l = 2 \/ l = 3) by lia.
  destruct C as [->|[->|[->| ->]]]; reflexivity.
Qed.
Lemma lane_shl_lanes k l w : l < 4 -> lane l (shl_lanes k w) = w32 (N.shiftl (lane l w) k).
Proof.
  intros Hl. unfold shl_lanes.
  assert (B : forall l, lane l w * 2^k mod 2^32 < M32) by (intros; apply N.mod_lt; discriminate).
  rewrite of_lanes_pick by (auto || lia). rewrite N.shiftl_mul_pow2.
  assert (C : l = 0 \/ l = 1 \/ l = 2 \/ l = 3) by lia.
  destruct C as [->|[->|[->| ->]]]; reflexivity.
Qed.

Lemma lane_MSK : lane 0 SFMT_MSK = 0xDFFFFFEF /\ lane 1 SFMT_MSK = 0xDDFECB7F /\
  lane 2 SFMT_MSK = 0xBFFAFFFF /\ lane 3 SFMT_MSK = 0xBFFFFFF6.
Proof. now vm_compute. Qed.

Lemma lane_recursion l a b c d : l < 4 -> c < 2^128 ->
  lane l (sfmt_recursion a b c d) =
  N.lxor (lane l a) (N.lxor
    (w32 (N.lor (N.shiftl (lane l a) 8) (if l =? 0 then 0 else N.shiftr (lane (l - 1) a) 24))) (N.lxor
    (N.land (N.shiftr (lane l b) 11) (lane l SFMT_MSK)) (N.lxor
    (w32 (N.lor (if l =? 3 then 0 else N.shiftl (lane (l + 1) c) 24) (N.shiftr (lane l c) 8)))
    (w32 (N.shiftl (lane l d) 18))))).
Proof.
  intros Hl Hc. unfold sfmt_recursion.
  rewrite !lane_lxor, lane_land, lane_shl8, lane_shr8, lane_shr_lanes, lane_shl_lanes by assumption.
  reflexivity.
Qed.

Lemma recursion_lt a b c d : a < 2^128 -> c < 2^128 -> sfmt_recursion a b c d < 2^128.
Proof.
  intros Ha Hc. unfold sfmt_recursion.
  assert (E : forall x y, x < 2^128 -> y < 2^128 -> N.lxor x y < 2^128) by (intros; now apply lxor_lt).
  apply E; [assumption|]. apply E; [apply N.mod_lt; discriminate|].
  apply E; [|apply E].
  - apply land_lt_r. now vm_compute.
  - eapply N.le_lt_trans; [|exact Hc]. apply N.div_le_upper_bound; [discriminate|].
    change (2^8) with 256. lia.
  - unfold shl_lanes. apply of_lanes_lt; apply N.mod_lt; discriminate.
Qed.

(** ** arrays of words seen as 128-bit words *)
(** The four words from index [i] are the lanes of [w]. *)
Definition vec (st : list N) (i : nat) (w : N) : Prop :=
  aget st i = lane 0 w /\ aget st (i + 1)%nat = lane 1 w /\
  aget st (i + 2)%nat = lane 2 w /\ aget st (i + 3)%nat = lane 3 w.

Definition write4 (st : list N) (i : nat) (a b c d : N) : list N :=
  aset (aset (aset (aset st i a) (i + 1)%nat b) (i + 2)%nat c) (i + 3)%nat d.

Lemma write4_length st i a b c d : length (write4 st i a b c d) = length st.
Proof. unfold write4. now rewrite !aset_length. Qed.

Lemma write4_get st i a b c d j : (i + 3 < length st)%nat ->
  aget (write4 st i a b c d) j =
  if (j =? i)%nat then a else if (j =? i + 1)%nat then b else if (j =? i + 2)%nat then c
  else if (j =? i + 3)%nat then d else aget st j.
Proof.
  intros Hl. unfold write4.
  rewrite !aget_aset by (rewrite ?aset_length; lia).
  destruct (Nat.eqb_spec (i + 3) j), (Nat.eqb_spec (i + 2) j), (Nat.eqb_spec (i + 1) j), (Nat.eqb_spec i j),
    (Nat.eqb_spec j i), (Nat.eqb_spec j (i + 1)), (Nat.eqb_spec j (i + 2)), (Nat.eqb_spec j (i + 3)); try lia; reflexivity.
Qed.

(** [f] replaces the vector at [i] by the recursion of those at [i], [ib], [ic], [id]. *)
Definition block_step (f : list N -> list N) (i ib ic id : nat) : Prop :=
  forall st A B C D, (624 <= length st)%nat -> C < 2^128 ->
    vec st i A -> vec st ib B -> vec st ic C -> vec st id D ->
    let W := sfmt_recursion A B C D in
    f st = write4 st i (lane 0 W) (lane 1 W) (lane 2 W) (lane 3 W).


Lemma w32_lxor a b : w32 (N.lxor a b) = N.lxor (w32 a) (w32 b).
Proof. apply N.bits_inj; intro n. rewrite !N.lxor_spec, !w32_bits, N.lxor_spec. btauto. Qed.
Lemma w32_lane l w : w32 (lane l w) = lane l w.
Proof. apply w32_small, lane_lt. Qed.
Lemma w32_land_const a c : c < M32 -> w32 (N.land a c) = N.land a c.
Proof. intros H. now apply w32_small, land_lt32_r. Qed.

Lemma lor_0_l a : N.lor 0 a = a. Proof. reflexivity. Qed.

(** The four lanes of the recursion, in the form of the code. *)
Lemma lane_rec0 A B C D : C < 2^128 -> lane 0 (sfmt_recursion A B C D) =
  N.lxor (lane 0 A) (N.lxor (w32 (N.shiftl (lane 0 A) 8)) (N.lxor
   (N.land (N.shiftr (lane 0 B) 11) 0xDFFFFFEF) (N.lxor
   (w32 (N.lor (N.shiftl (lane 1 C) 24) (N.shiftr (lane 0 C) 8))) (w32 (N.shiftl (lane 0 D) 18))))).
Proof.
  intros H. rewrite lane_recursion by (lia || assumption).
  cbn [N.eqb]. rewrite N.lor_0_r. destruct lane_MSK as (E & _). rewrite E. reflexivity.
Qed.
Lemma lane_rec1 A B C D : C < 2^128 -> lane 1 (sfmt_recursion A B C D) =
  N.lxor (lane 1 A) (N.lxor (w32 (N.lor (N.shiftl (lane 1 A) 8) (N.shiftr (lane 0 A) 24))) (N.lxor
   (N.land (N.shiftr (lane 1 B) 11) 0xDDFECB7F) (N.lxor
   (w32 (N.lor (N.shiftl (lane 2 C) 24) (N.shiftr (lane 1 C) 8))) (w32 (N.shiftl (lane 1 D) 18))))).
Proof.
  intros H. rewrite lane_recursion by (lia || assumption).
  destruct lane_MSK as (_ & E & _). rewrite E. reflexivity.
Qed.
Lemma lane_rec2 A B C D : C < 2^128 -> lane 2 (sfmt_recursion A B C D) =
  N.lxor (lane 2 A) (N.lxor (w32 (N.lor (N.shiftl (lane 2 A) 8) (N.shiftr (lane 1 A) 24))) (N.lxor
   (N.land (N.shiftr (lane 2 B) 11) 0xBFFAFFFF) (N.lxor
   (w32 (N.lor (N.shiftl (lane 3 C) 24) (N.shiftr (lane 2 C) 8))) (w32 (N.shiftl (lane 2 D) 18))))).
Proof.
  intros H. rewrite lane_recursion by (lia || assumption).
  destruct lane_MSK as (_ & _ & E & _). rewrite E. reflexivity.
Qed.
Lemma lane_rec3 A B C D : C < 2^128 -> lane 3 (sfmt_recursion A B C D) =
  N.lxor (lane 3 A) (N.lxor (w32 (N.lor (N.shiftl (lane 3 A) 8) (N.shiftr (lane 2 A) 24))) (N.lxor
   (N.land (N.shiftr (lane 3 B) 11) 0xBFFFFFF6) (N.lxor
   (w32 (N.shiftr (lane 3 C) 8)) (w32 (N.shiftl (lane 3 D) 18))))).
Proof.
  intros H. rewrite lane_recursion by (lia || assumption).
  destruct lane_MSK as (_ & _ & _ & E). rewrite E. reflexivity.
Qed.

Ltac xor_ac := apply N.bits_inj; intro; rewrite ?N.lxor_spec; btauto.

(** Normalise a block of four stores whose reads all precede them. *)
Ltac py_block :=
  intros st A B C D HL HC (A0 & A1 & A2 & A3) (B0 & B1 & B2 & B3) (C0 & C1 & C2 & C3) (D0 & D1 & D2 & D3) W;
  cbv zeta; subst W; cbn [Nat.add] in *;
  rewrite !aget_aset_ne by lia;
  unfold write4; cbn [Nat.add];
  rewrite ?A0, ?A1, ?A2, ?A3, ?B0, ?B1, ?B2, ?B3, ?C0, ?C1, ?C2, ?C3, ?D0, ?D1, ?D2, ?D3;
  rewrite lane_rec0, lane_rec1, lane_rec2, lane_rec3 by assumption;
  rewrite !w32_lxor, !w32_lane, !w32_land_const by reflexivity;
  repeat (f_equal; [|xor_ac]); try (f_equal; xor_ac).

Lemma py_first_step : block_step sfmt_py_first 0 488 616 620.
Proof. unfold sfmt_py_first. py_block. Qed.
Lemma py_second_step : block_step sfmt_py_second 4 492 620 0.
Proof. unfold sfmt_py_second. py_block. Qed.

Lemma py_loop1_step k : block_step (sfmt_py_loop1 (8 + k)) (8 + k) (k + 496) k (k + 4).
Proof.
  unfold sfmt_py_loop1. set (i := (8 + k)%nat).
  replace (i - 8)%nat with k by lia. replace (i - 7)%nat with (k + 1)%nat by lia.
  replace (i - 6)%nat with (k + 2)%nat by lia. replace (i - 5)%nat with (k + 3)%nat by lia.
  replace (i - 4)%nat with (k + 4)%nat by lia. replace (i - 3)%nat with (k + 4 + 1)%nat by lia.
  replace (i - 2)%nat with (k + 4 + 2)%nat by lia. replace (i - 1)%nat with (k + 4 + 3)%nat by lia.
  replace (i + 488)%nat with (k + 496)%nat by lia. replace (i + 489)%nat with (k + 496 + 1)%nat by lia.
  replace (i + 490)%nat with (k + 496 + 2)%nat by lia. replace (i + 491)%nat with (k + 496 + 3)%nat by lia.
  clearbody i. py_block.
Qed.
Lemma py_loop2_step k : block_step (sfmt_py_loop2 (136 + k)) (136 + k) k (k + 128) (k + 132).
Proof.
  unfold sfmt_py_loop2. set (i := (136 + k)%nat).
  replace (i - 8)%nat with (k + 128)%nat by lia. replace (i - 7)%nat with (k + 128 + 1)%nat by lia.
  replace (i - 6)%nat with (k + 128 + 2)%nat by lia. replace (i - 5)%nat with (k + 128 + 3)%nat by lia.
  replace (i - 4)%nat with (k + 132)%nat by lia. replace (i - 3)%nat with (k + 132 + 1)%nat by lia.
  replace (i - 2)%nat with (k + 132 + 2)%nat by lia. replace (i - 1)%nat with (k + 132 + 3)%nat by lia.
  replace (i - 136)%nat with k by lia. replace (i - 135)%nat with (k + 1)%nat by lia.
  replace (i - 134)%nat with (k + 2)%nat by lia. replace (i - 133)%nat with (k + 3)%nat by lia.
  clearbody i. py_block.
Qed.

(** ** the vector code *)
Lemma left_word x y : x < M32 -> y < M32 ->
  y / 2^24 mod 256 + 2^8 * (x mod 256) + 2^16 * (x / 2^8 mod 256) + 2^24 * (x / 2^16 mod 256)
  = w32 (N.lor (N.shiftl x 8) (N.shiftr y 24)).
Proof.
  intros Hx Hy. rewrite lor_shiftl_add by (rewrite N.shiftr_div_pow2; apply N.div_lt_upper_bound; [discriminate|exact Hy]).
  rewrite N.shiftr_div_pow2. unfold w32.
  change (2^8) with 256. change (2^16) with 65536. change (2^24) with 16777216. lia.
Qed.
Lemma right_word x y : x < M32 -> y < M32 ->
  x / 2^8 mod 256 + 2^8 * (x / 2^16 mod 256) + 2^16 * (x / 2^24 mod 256) + 2^24 * (y mod 256)
  = w32 (N.lor (N.shiftl y 24) (N.shiftr x 8)).
Proof.
  intros Hx Hy. rewrite lor_shiftl_add by (rewrite N.shiftr_div_pow2; apply N.div_lt_upper_bound; [discriminate|exact Hx]).
  rewrite N.shiftr_div_pow2. unfold w32.
  change (2^8) with 256. change (2^16) with 65536. change (2^24) with 16777216. lia.
Qed.

Lemma shift_left_words a b c d : a < M32 -> b < M32 -> c < M32 -> d < M32 ->
  shift_bytes [a; b; c; d] SHIFT_LEFT_MASK =
  [w32 (N.shiftl a 8); w32 (N.lor (N.shiftl b 8) (N.shiftr a 24));
   w32 (N.lor (N.shiftl c 8) (N.shiftr b 24)); w32 (N.lor (N.shiftl d 8) (N.shiftr c 24))].
Proof.
  intros Ha Hb Hc Hd. rewrite <- !left_word by assumption.
  pose proof (left_word a 0 Ha ltac:(lia)) as E. change (N.shiftr 0 24) with 0 in E.
  rewrite N.lor_0_r in E. rewrite <- E. reflexivity.
Qed.
Lemma shift_right_words a b c d : a < M32 -> b < M32 -> c < M32 -> d < M32 ->
  shift_bytes [a; b; c; d] SHIFT_RIGHT_MASK =
  [w32 (N.lor (N.shiftl b 24) (N.shiftr a 8)); w32 (N.lor (N.shiftl c 24) (N.shiftr b 8));
   w32 (N.lor (N.shiftl d 24) (N.shiftr c 8)); w32 (N.shiftr d 8)].
Proof.
  intros Ha Hb Hc Hd. rewrite <- !right_word by assumption.
  pose proof (right_word d 0 Hd ltac:(lia)) as E. change (N.shiftl 0 24) with 0 in E.
  rewrite N.lor_0_l in E. rewrite <- E. reflexivity.
Qed.

Lemma ir_step ob oc od index :
  block_step (fun st => fst (mm_recursion (ob, oc, od) (st, index))) (N.to_nat index)
    (N.to_nat (add_i64 index ob)) (N.to_nat (add_i64 index oc)) (N.to_nat (add_i64 index od)).
Proof.
  unfold mm_recursion.
  set (ia := N.to_nat index). set (ib := N.to_nat (add_i64 index ob)).
  set (ic := N.to_nat (add_i64 index oc)). set (id := N.to_nat (add_i64 index od)).
  clearbody ia ib ic id.
  intros st A B C D HL HC (A0 & A1 & A2 & A3) (B0 & B1 & B2 & B3) (C0 & C1 & C2 & C3) (D0 & D1 & D2 & D3) W.
  cbv zeta. subst W. cbn [fst]. unfold vload.
  rewrite A0, A1, A2, A3, B0, B1, B2, B3, C0, C1, C2, C3, D0, D1, D2, D3.
  rewrite shift_left_words, shift_right_words by apply lane_lt.
  rewrite lane_rec0, lane_rec1, lane_rec2, lane_rec3 by assumption.
  unfold vstore, write4, vxor, vmap2, vlshr, vshl, shl32, VMASK.
  cbn [map combine nth].
  repeat (f_equal; [|xor_ac]). f_equal. xor_ac.
Qed.
