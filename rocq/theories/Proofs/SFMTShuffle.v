(** The two shuffles advance the 128-bit sequence by 156 words. *)
From Coq Require Import NArith ZArith List Bool Lia.
From Coq Require Import ZifyBool ZifyNat ZifyN.
From Verif Require Import Base.Word Base.WordLemmas Model.SFMT Spec.SFMTSpec Proofs.SFMTProofs.
Import ListNotations.
Open Scope N_scope.

Local Notation M32 := 4294967296.

Definition srec (W : nat -> N) : Prop := forall k,
  W (k + 156)%nat = sfmt_recursion (W k) (W (k + 122)%nat) (W (k + 154)%nat) (W (k + 155)%nat).

Section Shuffle.
  Variable W : nat -> N.
  Hypothesis Wrec : srec W.
  Hypothesis Wlt : forall k, W k < 2^128.

  (** The first 624 words are the lanes of W b .. W (b+155). *)
  Definition sholds (st : list N) (b : nat) : Prop :=
    (624 <= length st)%nat /\ forall j, (j < 156)%nat -> vec st (4 * j) (W (b + j)%nat).

  (** The first [i] vectors have been replaced; nothing beyond word 623 has changed. *)
  Definition spartly (b : nat) (st0 : list N) (i : nat) (st : list N) : Prop :=
    length st = length st0 /\ (624 <= length st)%nat /\
    (forall j, (624 <= j)%nat -> aget st j = aget st0 j) /\
    forall j, (j < 156)%nat -> vec st (4 * j) (if (j <? i)%nat then W (b + 156 + j)%nat else W (b + j)%nat).

  Lemma vec_write4_same st i A : (i + 3 < length st)%nat ->
    vec (write4 st i (lane 0 A) (lane 1 A) (lane 2 A) (lane 3 A)) i A.
  Proof.
    intros H. unfold vec. rewrite !write4_get by assumption.
    rewrite Nat.eqb_refl.
    destruct (Nat.eqb_spec (i + 1) i); [lia|]. rewrite Nat.eqb_refl.
    destruct (Nat.eqb_spec (i + 2) i); [lia|]. destruct (Nat.eqb_spec (i + 2) (i + 1)); [lia|]. rewrite Nat.eqb_refl.
    destruct (Nat.eqb_spec (i + 3) i); [lia|]. destruct (Nat.eqb_spec (i + 3) (i + 1)); [lia|].
    destruct (Nat.eqb_spec (i + 3) (i + 2)); [lia|]. rewrite Nat.eqb_refl. auto.
  Qed.
  Lemma vec_write4_other st i j a b c d B : (i + 3 < length st)%nat -> (j + 3 < i \/ i + 3 < j)%nat ->
    vec st j B -> vec (write4 st i a b c d) j B.
  Proof.
    intros H Hd (H0 & H1 & H2 & H3). unfold vec.
    assert (E : forall l, (l < 4)%nat -> aget (write4 st i a b c d) (j + l) = aget st (j + l)).
    { intros l Hl. rewrite write4_get by assumption.
      destruct (Nat.eqb_spec (j + l) i); [lia|]. destruct (Nat.eqb_spec (j + l) (i + 1)); [lia|].
      destruct (Nat.eqb_spec (j + l) (i + 2)); [lia|]. destruct (Nat.eqb_spec (j + l) (i + 3)); [lia|]. reflexivity. }
    pose proof (E 0%nat ltac:(lia)) as E0. rewrite Nat.add_0_r in E0.
    rewrite E0, !E by lia. auto.
  Qed.

  Lemma spartly_step f b st0 i st ib ic id : (i < 156)%nat ->
    block_step f (4 * i) (4 * ib) (4 * ic) (4 * id) ->
    (ib < 156)%nat -> (ic < 156)%nat -> (id < 156)%nat ->
    (if (ib <? i)%nat then b + 156 + ib else b + ib)%nat = (b + i + 122)%nat ->
    (if (ic <? i)%nat then b + 156 + ic else b + ic)%nat = (b + i + 154)%nat ->
    (if (id <? i)%nat then b + 156 + id else b + id)%nat = (b + i + 155)%nat ->
    spartly b st0 i st -> spartly b st0 (S i) (f st).
  Proof.
    intros Hi Hf Hib Hic Hid Eb Ec Ed (L & L' & Hj & Hv).
    pose proof (Hv i Hi) as VA. pose proof (Hv ib Hib) as VB.
    pose proof (Hv ic Hic) as VC. pose proof (Hv id Hid) as VD.
    replace (if (i <? i)%nat then W (b + 156 + i)%nat else W (b + i)%nat) with (W (b + i)%nat) in VA
      by (destruct (Nat.ltb_spec i i); [lia|reflexivity]).
    replace (if (ib <? i)%nat then W (b + 156 + ib)%nat else W (b + ib)%nat) with (W (b + i + 122)%nat) in VB
      by (rewrite <- Eb; now destruct (ib <? i)%nat).
    replace (if (ic <? i)%nat then W (b + 156 + ic)%nat else W (b + ic)%nat) with (W (b + i + 154)%nat) in VC
      by (rewrite <- Ec; now destruct (ic <? i)%nat).
    replace (if (id <? i)%nat then W (b + 156 + id)%nat else W (b + id)%nat) with (W (b + i + 155)%nat) in VD
      by (rewrite <- Ed; now destruct (id <? i)%nat).
    pose proof (Hf st _ _ _ _ L' (Wlt _) VA VB VC VD) as E. cbv zeta in E.
    rewrite <- (Wrec (b + i)%nat) in E.
    assert (B4 : (4 * i + 3 < length st)%nat) by lia.
    rewrite E. split; [now rewrite write4_length|]. split; [now rewrite write4_length|]. split.
    - intros j Hj'. rewrite write4_get by assumption.
      destruct (Nat.eqb_spec j (4 * i)); [lia|]. destruct (Nat.eqb_spec j (4 * i + 1)); [lia|].
      destruct (Nat.eqb_spec j (4 * i + 2)); [lia|]. destruct (Nat.eqb_spec j (4 * i + 3)); [lia|]. auto.
    - intros j Hj'. destruct (Nat.eq_dec j i) as [->|Hne].
      + destruct (Nat.ltb_spec i (S i)); [|lia].
        replace (b + 156 + i)%nat with (b + i + 156)%nat by lia. now apply vec_write4_same.
      + replace (j <? S i)%nat with (j <? i)%nat
          by (destruct (Nat.ltb_spec j i), (Nat.ltb_spec j (S i)); auto; lia).
        apply vec_write4_other; [assumption|lia|]. now apply Hv.
  Qed.

  Lemma spartly_start b st : sholds st b -> spartly b st 0 st.
  Proof. intros [L H]. repeat split; auto; intros; apply H; assumption. Qed.

  Lemma sholds_of_partly b st0 st : spartly b st0 156 st ->
    sholds st (b + 156) /\ length st = length st0 /\ forall j, (624 <= j)%nat -> aget st j = aget st0 j.
  Proof.
    intros (L & L' & Hj & Hv). split; [|auto]. split; [assumption|].
    intros j Hj'. specialize (Hv j Hj'). destruct (Nat.ltb_spec j 156); [exact Hv|lia].
  Qed.

  Ltac idx := repeat match goal with |- context [(?a <? ?b)%nat] => destruct (Nat.ltb_spec a b) end; lia.

  (** *** Python *)
  Lemma shuffle_py_holds b st : sholds st b ->
    sholds (sfmt_shuffle_py st) (b + 156) /\ length (sfmt_shuffle_py st) = length st /\
    forall j, (624 <= j)%nat -> aget (sfmt_shuffle_py st) j = aget st j.
  Proof.
    intros H. apply sholds_of_partly. unfold sfmt_shuffle_py.
    assert (H1 : spartly b st 1 (sfmt_py_first st)).
    { apply (spartly_step _ b st 0 st 122 154 155); try lia; try idx.
      - exact py_first_step.
      - now apply spartly_start. }
    assert (H2 : spartly b st 2 (sfmt_py_second (sfmt_py_first st))).
    { apply (spartly_step _ b st 1 _ 123 155 0); try lia; try idx; [exact py_second_step|assumption]. }
    set (st2 := sfmt_py_second _) in *. clearbody st2.
    assert (H3 : spartly b st 34 (for_range 32 0 (fun k st => sfmt_py_loop1 (8 + 4 * k) st) st2)).
    { apply (for_range_inv (fun k s => spartly b st (2 + k) s) (fun k st => sfmt_py_loop1 (8 + 4 * k) st) 32 0 st2 H2).
      intros k s Hk Hs. apply (spartly_step _ b st (2 + k) s (124 + k) k (1 + k)); try lia; try idx; [|assumption].
      pose proof (py_loop1_step (4 * k)) as P.
      replace (4 * (2 + k))%nat with (8 + 4 * k)%nat by lia.
      replace (4 * (124 + k))%nat with (4 * k + 496)%nat by lia.
      replace (4 * (1 + k))%nat with (4 * k + 4)%nat by lia. exact P. }
    set (st3 := for_range 32 _ _ _) in *. clearbody st3.
    apply (for_range_inv (fun k s => spartly b st (34 + k) s) (fun k st => sfmt_py_loop2 (136 + 4 * k) st) 122 0 st3 H3).
    intros k s Hk Hs. apply (spartly_step _ b st (34 + k) s k (32 + k) (33 + k)); try lia; try idx; [|assumption].
    pose proof (py_loop2_step (4 * k)) as P.
    replace (4 * (34 + k))%nat with (136 + 4 * k)%nat by lia.
    replace (4 * (32 + k))%nat with (4 * k + 128)%nat by lia.
    replace (4 * (33 + k))%nat with (4 * k + 132)%nat by lia. exact P.
  Qed.

  (** *** IR *)
  Lemma mm_index ofs st index : index < 1000 -> snd (mm_recursion ofs (st, index)) = index + 4.
  Proof. intros H. unfold mm_recursion. destruct ofs as [[? ?] ?]. cbn [snd]. apply w64_small. lia. Qed.

  Lemma add_i64_ok index ofs r : (Z.of_N index + ofs = Z.of_N r)%Z -> r < 1000 -> index < 1000 ->
    add_i64 index ofs = r.
  Proof.
    intros H Hr Hi. unfold add_i64, w64. change (2^64)%Z with 18446744073709551616%Z.
    assert (-1000 < ofs < 1000)%Z by lia. lia.
  Qed.

  (** One round of the vector code at vector index [i]. *)
  Lemma ir_partly ob oc od b st0 i ib ic id st : (i < 156)%nat ->
    (ib < 156)%nat -> (ic < 156)%nat -> (id < 156)%nat ->
    (Z.of_nat (4 * i) + ob = Z.of_nat (4 * ib))%Z ->
    (Z.of_nat (4 * i) + oc = Z.of_nat (4 * ic))%Z ->
    (Z.of_nat (4 * i) + od = Z.of_nat (4 * id))%Z ->
    (if (ib <? i)%nat then b + 156 + ib else b + ib)%nat = (b + i + 122)%nat ->
    (if (ic <? i)%nat then b + 156 + ic else b + ic)%nat = (b + i + 154)%nat ->
    (if (id <? i)%nat then b + 156 + id else b + id)%nat = (b + i + 155)%nat ->
    spartly b st0 i st ->
    exists st', mm_recursion (ob, oc, od) (st, N.of_nat (4 * i)) = (st', N.of_nat (4 * S i)) /\
                spartly b st0 (S i) st'.
  Proof.
    intros Hi Hib Hic Hid Zb Zc Zd Eb Ec Ed H.
    pose proof (ir_step ob oc od (N.of_nat (4 * i))) as P.
    rewrite (add_i64_ok _ ob (N.of_nat (4 * ib))) in P by lia.
    rewrite (add_i64_ok _ oc (N.of_nat (4 * ic))) in P by lia.
    rewrite (add_i64_ok _ od (N.of_nat (4 * id))) in P by lia.
    rewrite !Nat2N.id in P.
    exists (fst (mm_recursion (ob, oc, od) (st, N.of_nat (4 * i)))). split.
    - rewrite (surjective_pairing (mm_recursion _ _)) at 1. f_equal. rewrite mm_index by lia. lia.
    - exact (spartly_step _ b st0 i st ib ic id Hi P Hib Hic Hid Eb Ec Ed H).
  Qed.

  Lemma ir_loop ofs b st0 last :
    (last <= 156)%nat ->
    forall d fuel i st, (last = i + S d)%nat -> (S d <= fuel)%nat ->
    (forall i', (i <= i' < last)%nat -> forall st, spartly b st0 i' st ->
       exists st', mm_recursion ofs (st, N.of_nat (4 * i')) = (st', N.of_nat (4 * S i')) /\ spartly b st0 (S i') st') ->
    spartly b st0 i st ->
    exists st', loop_mm_recursion fuel ofs (N.of_nat (4 * last)) (st, N.of_nat (4 * i))
                = Ok (st', N.of_nat (4 * last)) /\ spartly b st0 last st'.
  Proof.
    intros Hl. induction d as [|d IH]; intros fuel i st El Hf Hstep H;
      (destruct fuel as [|fuel]; [lia|]); cbn [loop_mm_recursion];
      destruct (Hstep i ltac:(lia) st H) as (st' & -> & H'); cbn [snd].
    - assert (E : S i = last) by lia. rewrite E in *. rewrite N.eqb_refl. exists st'. auto.
    - destruct (N.eqb_spec (N.of_nat (4 * S i)) (N.of_nat (4 * last))); [lia|].
      apply IH; try lia; auto. intros i' Hi'. apply Hstep. lia.
  Qed.

  Lemma shuffle_ir_holds b st : sholds st b ->
    exists st', sfmt_shuffle_ir st = Ok st' /\
    sholds st' (b + 156) /\ length st' = length st /\
    forall j, (624 <= j)%nat -> aget st' j = aget st j.
  Proof.
    intros H. unfold sfmt_shuffle_ir.
    destruct (ir_partly 488 616 620 b st 0 122 154 155 st) as (s1 & E1 & H1); try lia; try idx.
    { now apply spartly_start. }
    change (N.of_nat (4 * 0)) with 0 in E1. rewrite E1.
    destruct (ir_partly 488 616 (-4) b st 1 123 155 0 s1) as (s2 & E2 & H2); try lia; try idx; [assumption|].
    rewrite E2.
    destruct (ir_loop (488, -8, -4)%Z b st 34 ltac:(lia) 31 624 2 s2)
      as (s3 & E3 & H3); try lia; [|assumption|].
    { intros i Hi s Hs. apply (ir_partly 488 (-8) (-4) b st i (i + 122) (i - 2) (i - 1) s); try lia; try idx. assumption. }
    change (N.of_nat (4 * 34)) with 136 in E3. rewrite E3. cbn [rbind].
    destruct (ir_loop (-136, -8, -4)%Z b st 156 ltac:(lia) 121 624 34 s3)
      as (s4 & E4 & H4); try lia; [|assumption|].
    { intros i Hi s Hs. apply (ir_partly (-136) (-8) (-4) b st i (i - 34) (i - 2) (i - 1) s); try lia; try idx. assumption. }
    change (N.of_nat (4 * 156)) with 624 in E4. change (N.of_nat (4 * 34)) with 136 in E4. rewrite E4.
    cbn [rmap fst]. exists s4. split; [reflexivity|]. now apply sholds_of_partly.
  Qed.
End Shuffle.

(** ** a sequence through any given 156 words *)
Definition swin_step (w : list N) : list N :=
  tl w ++ [sfmt_recursion (aget w 0) (aget w 122) (aget w 154) (aget w 155)].
Definition swin (init : list N) (k : nat) : list N := Nat.iter k swin_step init.
Definition sseq (init : list N) (k : nat) : N := aget (swin init k) 0.

Lemma swin_length init k : length init = 156%nat -> length (swin init k) = 156%nat.
Proof.
  intros H. induction k; [exact H|]. change (swin init (S k)) with (swin_step (swin init k)).
  unfold swin_step. rewrite app_length. destruct (swin init k); cbn [length tl] in *; lia.
Qed.
Lemma swin_shift init k j : length init = 156%nat -> (S j < 156)%nat ->
  aget (swin init (S k)) j = aget (swin init k) (S j).
Proof.
  intros H Hj. pose proof (swin_length init k H) as L.
  change (swin init (S k)) with (swin_step (swin init k)). unfold swin_step, aget.
  destruct (swin init k) as [|h t]; [simpl in L; lia|]. cbn [tl length] in *.
  rewrite app_nth1 by lia. reflexivity.
Qed.
Lemma swin_last init k : length init = 156%nat -> aget (swin init (S k)) 155 =
  sfmt_recursion (aget (swin init k) 0) (aget (swin init k) 122) (aget (swin init k) 154) (aget (swin init k) 155).
Proof.
  intros H. pose proof (swin_length init k H) as L.
  change (swin init (S k)) with (swin_step (swin init k)). unfold swin_step.
  unfold aget at 1. rewrite app_nth2; destruct (swin init k) as [|h t]; cbn [tl length] in *; try lia.
  replace (155 - length t)%nat with 0%nat by lia. reflexivity.
Qed.
Lemma swin_seq init (H : length init = 156%nat) j : forall k, (j < 156)%nat ->
  aget (swin init k) j = sseq init (k + j).
Proof.
  induction j; intros k Hj; [now rewrite Nat.add_0_r|].
  rewrite <- swin_shift by assumption. rewrite IHj by lia. f_equal. lia.
Qed.
Lemma sseq_init init j : length init = 156%nat -> (j < 156)%nat -> sseq init j = aget init j.
Proof. intros H Hj. exact (eq_sym (swin_seq init H j 0 Hj)). Qed.
Lemma sseq_rec init : length init = 156%nat -> srec (sseq init).
Proof.
  intros H k. replace (k + 156)%nat with (S k + 155)%nat by lia.
  rewrite <- (swin_seq init H 155 (S k)) by lia. rewrite swin_last by assumption.
  rewrite !(swin_seq init H) by lia. now rewrite Nat.add_0_r.
Qed.
Lemma sseq_lt init : length init = 156%nat -> (forall j, (j < 156)%nat -> aget init j < 2^128) ->
  forall k, sseq init k < 2^128.
Proof.
  intros H Hi k. induction k as [k IH] using (well_founded_induction lt_wf).
  destruct (Nat.lt_ge_cases k 156).
  - rewrite sseq_init by assumption. auto.
  - replace k with (k - 156 + 156)%nat by lia. rewrite (sseq_rec init H).
    apply recursion_lt; apply IH; lia.
Qed.

(** The 128-bit words of an array of 32-bit words. *)
Definition pack (st : list N) : list N :=
  map (fun j => of_lanes (aget st (4 * j)) (aget st (4 * j + 1)) (aget st (4 * j + 2)) (aget st (4 * j + 3))) (seq 0 156).
Lemma pack_length st : length (pack st) = 156%nat.
Proof. unfold pack. now rewrite map_length, seq_length. Qed.
Lemma pack_get st j : (j < 156)%nat -> aget (pack st) j =
  of_lanes (aget st (4 * j)) (aget st (4 * j + 1)) (aget st (4 * j + 2)) (aget st (4 * j + 3)).
Proof.
  intros H. unfold pack, aget at 1.
  rewrite (nth_indep _ 0 (of_lanes (aget st (4 * 0)) (aget st (4 * 0 + 1)) (aget st (4 * 0 + 2)) (aget st (4 * 0 + 3))))
    by (now rewrite map_length, seq_length).
  rewrite (map_nth (fun j => of_lanes (aget st (4 * j)) (aget st (4 * j + 1)) (aget st (4 * j + 2)) (aget st (4 * j + 3)))).
  rewrite seq_nth by assumption. reflexivity.
Qed.
Lemma aget_lt st j : Forall (fun w => w < M32) st -> aget st j < M32.
Proof.
  intros H. unfold aget. destruct (Nat.lt_ge_cases j (length st)) as [Hj|Hj].
  - rewrite Forall_forall in H. apply H. now apply nth_In.
  - rewrite nth_overflow by assumption. lia.
Qed.
Lemma sholds_pack st : (624 <= length st)%nat -> Forall (fun w => w < M32) st -> sholds (sseq (pack st)) st 0.
Proof.
  intros L H. split; [assumption|]. intros j Hj. cbn [Nat.add].
  rewrite sseq_init, pack_get by (apply pack_length || assumption).
  destruct (lane_of_lanes (aget st (4 * j)) (aget st (4 * j + 1)) (aget st (4 * j + 2)) (aget st (4 * j + 3)))
    as (E0 & E1 & E2 & E3); try now apply aget_lt.
  repeat split; now symmetry.
Qed.
Lemma pack_lt st : Forall (fun w => w < M32) st -> forall k, sseq (pack st) k < 2^128.
Proof.
  intros H. apply sseq_lt; [apply pack_length|]. intros j Hj. rewrite pack_get by assumption.
  apply of_lanes_lt; now apply aget_lt.
Qed.

Lemma sholds_aget W st st' b j : sholds W st b -> sholds W st' b -> (j < 624)%nat -> aget st j = aget st' j.
Proof.
  intros [_ H] [_ H'] Hj.
  pose proof (H (j / 4)%nat ltac:(lia)) as (A0 & A1 & A2 & A3).
  pose proof (H' (j / 4)%nat ltac:(lia)) as (B0 & B1 & B2 & B3).
  assert (C : (j = 4 * (j / 4) \/ j = 4 * (j / 4) + 1 \/ j = 4 * (j / 4) + 2 \/ j = 4 * (j / 4) + 3)%nat) by lia.
  destruct C as [C|[C|[C|C]]]; rewrite C; congruence.
Qed.

(** The two implementations agree on every array of at least 624 words, and neither
    reads or writes beyond word 623. *)
Lemma ir_equals_py st : (624 <= length st)%nat -> Forall (fun w => w < M32) st ->
  sfmt_shuffle_ir st = Ok (sfmt_shuffle_py st).
Proof.
  intros L H.
  pose proof (sseq_rec (pack st) (pack_length st)) as Hr.
  pose proof (pack_lt st H) as Hb. pose proof (sholds_pack st L H) as Hh.
  destruct (shuffle_py_holds _ Hr Hb 0 st Hh) as (P1 & P2 & P3).
  destruct (shuffle_ir_holds _ Hr Hb 0 st Hh) as (st' & -> & Q1 & Q2 & Q3).
  f_equal. apply list_eq_aget; [congruence|]. intros j Hj.
  destruct (Nat.lt_ge_cases j 624).
  - eapply sholds_aget; eassumption.
  - rewrite P3, Q3 by assumption. reflexivity.
Qed.

Lemma py_frame st extra : length st = 624%nat -> Forall (fun w => w < M32) st -> Forall (fun w => w < M32) extra ->
  sfmt_shuffle_py (st ++ extra) = sfmt_shuffle_py st ++ extra.
Proof.
  intros L H He.
  pose proof (sseq_rec (pack st) (pack_length st)) as Hr.
  pose proof (pack_lt st H) as Hb. pose proof (sholds_pack st ltac:(lia) H) as Hh.
  assert (Hh' : sholds (sseq (pack st)) (st ++ extra) 0).
  { split; [rewrite app_length; lia|]. intros j Hj. destruct Hh as [_ Hh].
    specialize (Hh j Hj). unfold vec in *. unfold aget in *.
    rewrite !app_nth1 by lia. exact Hh. }
  destruct (shuffle_py_holds _ Hr Hb 0 st Hh) as (P1 & P2 & P3).
  destruct (shuffle_py_holds _ Hr Hb 0 (st ++ extra) Hh') as (Q1 & Q2 & Q3).
  apply list_eq_aget; [rewrite Q2, !app_length, P2; reflexivity|].
  intros j Hj. destruct (Nat.lt_ge_cases j 624).
  - rewrite (sholds_aget _ _ _ _ j Q1 P1) by assumption. unfold aget. rewrite app_nth1 by lia. reflexivity.
  - rewrite Q3 by assumption. unfold aget. rewrite !app_nth2 by lia. f_equal. lia.
Qed.
