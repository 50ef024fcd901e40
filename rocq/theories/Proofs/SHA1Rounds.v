(** The unrolled rounds and the shortened schedule of sha1.py against SHA-1. *)
From Coq Require Import ZArith NArith List Bool Lia Arith.
From Verif Require Import Base.Word Base.WordLemmas Model.Util Model.SHA1 Model.SHA1Class Spec.SHA1Spec Proofs.UtilProofs.
Import ListNotations.
Open Scope N_scope.
Ltac Zify.zify_post_hook ::= Z.div_mod_to_equations.

(** * Rotations *)
Lemma rol_arith_1 x : x < 4294967296 -> (x * 2 + x / 2147483648) mod 4294967296 = x * 2 mod 4294967296 + x / 2147483648.
Proof. lia. Qed.
Lemma rol_arith_2 x : x < 4294967296 -> (x * 4 + x / 1073741824) mod 4294967296 = x * 4 mod 4294967296 + x / 1073741824.
Proof. lia. Qed.
Lemma rol_arith_5 x : x < 4294967296 -> (x * 32 + x / 134217728) mod 4294967296 = x * 32 mod 4294967296 + x / 134217728.
Proof. lia. Qed.
Lemma rol_arith_30 x : x < 4294967296 -> (x * 1073741824 + x / 4) mod 4294967296 = x * 1073741824 mod 4294967296 + x / 4.
Proof. lia. Qed.
Ltac Zify.zify_post_hook ::= idtac.

Ltac rol_tac L H :=
  unfold rotl32, rotr32, rotl32_raw, rotr32_raw, rol, W32;
  rewrite w32_small with (1 := H);
  rewrite lor_shiftl_add by (rewrite N.shiftr_div_pow2; apply N.div_lt_upper_bound; [discriminate|]; exact H);
  rewrite N.shiftr_div_pow2; exact (L _ H).
Lemma rotl32_1 x : x < 2^32 -> rotl32 x 1 = rol 1 x.
Proof. intros H. rol_tac rol_arith_1 H. Qed.
Lemma rotl32_2 x : x < 2^32 -> rotl32 x 2 = rol 2 x.
Proof. intros H. rol_tac rol_arith_2 H. Qed.
Lemma rotl32_5 x : x < 2^32 -> rotl32 x 5 = rol 5 x.
Proof. intros H. rol_tac rol_arith_5 H. Qed.
Lemma rotr32_2 x : x < 2^32 -> rotr32 x 2 = rol 30 x.
Proof. intros H. rol_tac rol_arith_30 H. Qed.

Lemma rotl32_lt x n : rotl32 x n < 2^32.
Proof. apply w32_lt. Qed.
Lemma rotl32_bits x n i : x < 2^32 -> 0 < n -> n < 32 -> N.testbit (rotl32 x n) i =
  (i <? 32) && if n <=? i then N.testbit x (i - n) else N.testbit x (i + 32 - n).
Proof.
  intros H N0 N1. unfold rotl32, rotl32_raw. rewrite w32_bits, N.lor_spec, shiftl_bits, shiftr_bits.
  rewrite (w32_small x) by exact H.
  destruct (N.ltb_spec i 32) as [I|I]; [|reflexivity]. cbn [andb].
  destruct (N.leb_spec n i) as [J|J]; cbn [andb].
  - rewrite (bits_above_lt x 32 (i + (32 - n))) by (assumption || lia). apply orb_false_r.
  - cbn [orb]. f_equal. lia.
Qed.
Lemma rotl32_lxor x y n : x < 2^32 -> y < 2^32 -> 0 < n -> n < 32 ->
  rotl32 (N.lxor x y) n = N.lxor (rotl32 x n) (rotl32 y n).
Proof.
  intros X Y N0 N1. apply N.bits_inj. intro i. rewrite N.lxor_spec, !rotl32_bits by (try assumption; apply lxor_lt; assumption).
  rewrite !N.lxor_spec. now destruct (i <? 32), (n <=? i).
Qed.
Lemma rotl32_twice x : x < 2^32 -> rotl32 (rotl32 x 1) 1 = rotl32 x 2.
Proof.
  intros X. apply N.bits_inj. intro i. rewrite (rotl32_bits (rotl32 x 1)) by (lia || apply rotl32_lt).
  rewrite !rotl32_bits by (lia || assumption).
  destruct (N.ltb_spec i 32); [|reflexivity]. cbn [andb].
  destruct (N.leb_spec 1 i).
  - destruct (N.ltb_spec (i - 1) 32); [|lia]. cbn [andb].
    destruct (N.leb_spec 1 (i - 1)), (N.leb_spec 2 i); try lia; f_equal; lia.
  - destruct (N.ltb_spec (i + 32 - 1) 32); [|lia]. cbn [andb].
    destruct (N.leb_spec 1 (i + 32 - 1)), (N.leb_spec 2 i); try lia; f_equal; lia.
Qed.

(** * The schedule *)
Definition word (v : N) : Prop := v < 2^32.
Lemma rol_1_word x : word x -> word (rol 1 x).
Proof. intros H. unfold word. rewrite <- rotl32_1 by exact H. apply rotl32_lt. Qed.
Lemma nth_word (l : list N) i : Forall word l -> word (nth i l 0).
Proof.
  intros H. destruct (Nat.lt_ge_cases i (length l)) as [I|I].
  - rewrite Forall_forall in H. apply H, nth_In, I.
  - rewrite nth_overflow by exact I. reflexivity.
Qed.
Lemma xor4_word a b c d : word a -> word b -> word c -> word d -> word (N.lxor (N.lxor (N.lxor a b) c) d).
Proof. intros. unfold word. repeat apply lxor_lt; assumption. Qed.

Lemma extend_length ws : length (extend ws) = S (length ws).
Proof. unfold extend. rewrite app_length. cbn [length]. lia. Qed.
Lemma extend_word ws : Forall word ws -> Forall word (extend ws).
Proof.
  intros H. unfold extend. apply Forall_app. split; [exact H|]. constructor; [|constructor].
  apply rol_1_word, xor4_word; apply nth_word, H.
Qed.
Lemma iter_extend n block : length (Nat.iter n extend block) = (n + length block)%nat.
Proof. induction n as [|n IH]; [reflexivity|]. cbn [Nat.iter nat_rect]. rewrite extend_length. unfold Nat.iter in IH. rewrite IH. reflexivity. Qed.
Lemma iter_extend_word n block : Forall word block -> Forall word (Nat.iter n extend block).
Proof. intros H. induction n as [|n IH]; [exact H|]. apply extend_word, IH. Qed.
Lemma iter_extend_old n block i : (i < length block)%nat -> nth i (Nat.iter n extend block) 0 = nth i block 0.
Proof.
  intros H. induction n as [|n IH]; [reflexivity|]. rewrite <- IH.
  change (Nat.iter (S n) extend block) with (extend (Nat.iter n extend block)).
  unfold extend at 1. apply app_nth1. rewrite iter_extend. lia.
Qed.
Lemma iter_plus n m block : Nat.iter (n + m) extend block = Nat.iter n extend (Nat.iter m extend block).
Proof. induction n as [|n IH]; [reflexivity|]. change (extend (Nat.iter (n + m) extend block) = extend (Nat.iter n extend (Nat.iter m extend block))). now rewrite IH. Qed.

Section Schedule.
Variable block : list N.
Hypothesis Hlen : length block = 16%nat.
Hypothesis Hword : Forall word block.
Definition Wd (i : nat) : N := nth i (schedule block) 0.

Lemma Wd_word i : word (Wd i).
Proof. apply nth_word, iter_extend_word, Hword. Qed.
Lemma Wd_old i : (i < 16)%nat -> Wd i = nth i block 0.
Proof. intros H. apply iter_extend_old. rewrite Hlen. exact H. Qed.
Lemma Wd_rec i : (16 <= i < 80)%nat ->
  Wd i = rol 1 (N.lxor (N.lxor (N.lxor (Wd (i - 3)) (Wd (i - 8))) (Wd (i - 14))) (Wd (i - 16))).
Proof.
  intros H. unfold Wd, schedule.
  pose (p := Nat.iter (i - 16) extend block).
  assert (P : length p = i) by (unfold p; rewrite iter_extend, Hlen; lia).
  assert (E : forall j, (j < i)%nat -> nth j (Nat.iter 64 extend block) 0 = nth j p 0).
  { intros j J. replace 64%nat with (64 - (i - 16) + (i - 16))%nat by lia. rewrite iter_plus.
    apply iter_extend_old. fold p. lia. }
  rewrite (E (i - 3)%nat), (E (i - 8)%nat), (E (i - 14)%nat), (E (i - 16)%nat) by lia.
  replace 64%nat with (63 - (i - 16) + S (i - 16))%nat by lia. rewrite iter_plus.
  rewrite iter_extend_old by (rewrite iter_extend, Hlen; lia).
  change (Nat.iter (S (i - 16)) extend block) with (extend p).
  unfold extend. rewrite app_nth2 by lia. rewrite P, Nat.sub_diag. reflexivity.
Qed.
Lemma Wd_rotl i : (16 <= i < 80)%nat ->
  Wd i = rotl32 (N.lxor (N.lxor (N.lxor (Wd (i - 3)) (Wd (i - 8))) (Wd (i - 14))) (Wd (i - 16))) 1.
Proof. intros H. rewrite rotl32_1 by (apply xor4_word; apply Wd_word). apply Wd_rec, H. Qed.

(** The recurrence of [calc_w_simd]. *)
Lemma Wd_simd i : (32 <= i < 80)%nat ->
  Wd i = rotl32 (N.lxor (N.lxor (N.lxor (Wd (i - 6)) (Wd (i - 16))) (Wd (i - 28))) (Wd (i - 32))) 2.
Proof.
  intros H. rewrite (Wd_rotl i) by lia.
  match goal with |- _ = ?r => remember r as rhs eqn:Erhs end.
  rewrite (Wd_rotl (i - 3)), (Wd_rotl (i - 8)), (Wd_rotl (i - 14)), (Wd_rotl (i - 16)) by lia.
  replace (i - 3 - 3)%nat with (i - 6)%nat by lia. replace (i - 3 - 8)%nat with (i - 11)%nat by lia.
  replace (i - 3 - 14)%nat with (i - 17)%nat by lia. replace (i - 3 - 16)%nat with (i - 19)%nat by lia.
  replace (i - 8 - 3)%nat with (i - 11)%nat by lia. replace (i - 8 - 8)%nat with (i - 16)%nat by lia.
  replace (i - 8 - 14)%nat with (i - 22)%nat by lia. replace (i - 8 - 16)%nat with (i - 24)%nat by lia.
  replace (i - 14 - 3)%nat with (i - 17)%nat by lia. replace (i - 14 - 8)%nat with (i - 22)%nat by lia.
  replace (i - 14 - 14)%nat with (i - 28)%nat by lia. replace (i - 14 - 16)%nat with (i - 30)%nat by lia.
  replace (i - 16 - 3)%nat with (i - 19)%nat by lia. replace (i - 16 - 8)%nat with (i - 24)%nat by lia.
  replace (i - 16 - 14)%nat with (i - 30)%nat by lia. replace (i - 16 - 16)%nat with (i - 32)%nat by lia.
  pose proof (Wd_word (i - 6)) as A6. pose proof (Wd_word (i - 11)) as A11. pose proof (Wd_word (i - 17)) as A17.
  pose proof (Wd_word (i - 19)) as A19. pose proof (Wd_word (i - 16)) as A16. pose proof (Wd_word (i - 22)) as A22.
  pose proof (Wd_word (i - 24)) as A24. pose proof (Wd_word (i - 28)) as A28. pose proof (Wd_word (i - 30)) as A30.
  pose proof (Wd_word (i - 32)) as A32.
  rewrite <- !rotl32_lxor by (try reflexivity; repeat apply lxor_lt; assumption).
  rewrite rotl32_twice by (repeat apply lxor_lt; assumption).
  rewrite Erhs. f_equal. clear.
  apply N.bits_inj. intro n. rewrite !N.lxor_spec.
  generalize (N.testbit (Wd (i - 6)) n) (N.testbit (Wd (i - 11)) n) (N.testbit (Wd (i - 17)) n) (N.testbit (Wd (i - 19)) n)
    (N.testbit (Wd (i - 16)) n) (N.testbit (Wd (i - 22)) n) (N.testbit (Wd (i - 24)) n) (N.testbit (Wd (i - 28)) n)
    (N.testbit (Wd (i - 30)) n) (N.testbit (Wd (i - 32)) n).
  intros [] [] [] [] [] [] [] [] [] []; reflexivity.
Qed.

(** [data] holds the schedule at the indices [I]. *)
Definition holds (data : list N) (I : list nat) : Prop := forall j, In j I -> aget data j = Wd j.
Definition has (I : list nat) (l : list nat) : bool := forallb (fun j => existsb (Nat.eqb j) I) l.
Lemma has_in I l j : has I l = true -> In j l -> In j I.
Proof.
  intros H J. unfold has in H. rewrite forallb_forall in H. specialize (H j J).
  rewrite existsb_exists in H. destruct H as [k [K E]]. apply Nat.eqb_eq in E. now subst.
Qed.
Lemma dset_length data i v : length (dset data i v) = length data.
Proof. apply aset_length. Qed.
Lemma dset_holds data I i v : length data = 80%nat -> (i < 80)%nat -> holds data I -> v = Wd i ->
  holds (dset data i v) (i :: I).
Proof.
  intros L Hi H E j J. unfold dset. destruct (Nat.eq_dec i j) as [->|Ne].
  - rewrite aget_aset_eq by lia. rewrite E. apply w32_small, Wd_word.
  - rewrite aget_aset_ne by exact Ne. destruct J as [J|J]; [contradiction|]. apply H, J.
Qed.
Lemma calc_w_holds data I i : length data = 80%nat -> (16 <= i < 80)%nat ->
  has I [i - 3; i - 8; i - 14; i - 16]%nat = true -> holds data I -> holds (calc_w data i) (i :: I).
Proof.
  intros L Hi B H. apply dset_holds; [exact L|lia|exact H|].
  rewrite Wd_rotl by exact Hi. unfold dget.
  rewrite !H by (apply (has_in _ _ _ B); cbn [In]; tauto). reflexivity.
Qed.
Lemma calc_w_length data i : length (calc_w data i) = length data.
Proof. apply dset_length. Qed.
Lemma calc_ws_length l : forall data, length (fold_left calc_w l data) = length data.
Proof. induction l as [|i l IH]; intro data; [reflexivity|]. cbn [fold_left]. rewrite IH. apply calc_w_length. Qed.
Fixpoint can_calc (I l : list nat) : bool :=
  match l with
  | [] => true
  | i :: l => (16 <=? i)%nat && (i <? 80)%nat && has I [i - 3; i - 8; i - 14; i - 16]%nat && can_calc (i :: I) l
  end.
Lemma calc_ws_holds l : forall data I, length data = 80%nat -> can_calc I l = true -> holds data I ->
  holds (fold_left calc_w l data) (rev l ++ I).
Proof.
  induction l as [|i l IH]; intros data I L B H; [exact H|].
  cbn [can_calc] in B. rewrite !andb_true_iff, Nat.leb_le, Nat.ltb_lt in B. destruct B as [[[B1 B2] B3] B4].
  cbn [fold_left rev]. rewrite <- app_assoc. apply IH; [now rewrite calc_w_length|exact B4|].
  apply calc_w_holds; [exact L|split; assumption|exact B3|exact H].
Qed.
Lemma simd_holds data : length data = 80%nat -> holds data (seq 0 32) ->
  let r := for_range 48 32 (fun i data => calc_w_simd data i) data in
  length r = 80%nat /\ forall j, (j < 80)%nat -> aget r j = Wd j.
Proof.
  intros L H r. unfold r.
  apply (for_range_inv (fun i d => length d = 80%nat /\ forall j, (j < i)%nat -> aget d j = Wd j)).
  - split; [exact L|]. intros j J. apply H, in_seq. lia.
  - intros i d Hi [Ld Hd]. split; [unfold calc_w_simd; now rewrite dset_length|].
    intros j J. apply (dset_holds d (seq 0 i)); [exact Ld|lia| | |].
    + intros k K. apply Hd. apply in_seq in K. lia.
    + rewrite Wd_simd by lia. unfold dget. rewrite !Hd by lia. reflexivity.
    + destruct (Nat.eq_dec i j) as [->|Ne]; [now left|]. right. apply in_seq. lia.
Qed.
End Schedule.

(** * Rounds *)
Lemma w32_sum5 a b c d e : w32 (a + b + c + d + e) = (a + b + c + d + e) mod W32.
Proof. reflexivity. Qed.
Lemma not_ok b : word b -> W32 - 1 - b = N.lnot b 32.
Proof.
  intros B. rewrite N.lnot_sub_low; [reflexivity|].
  destruct (N.eq_dec b 0) as [->|]; [reflexivity|]. apply N.log2_lt_pow2; [lia|exact B].
Qed.
Lemma ch_ok b c d : word b -> N.lor (N.land b c) (N.land (not32 b) d) = Ch b c d.
Proof.
  intros B. unfold Ch, not32. rewrite w32_small by exact B. rewrite not_ok by exact B.
  change (N.lxor b 0xFFFFFFFF) with (N.lnot b 32).
  apply lor_lxor_disj. apply N.bits_inj. intro n. rewrite !N.land_spec, N.bits_0.
  destruct (N.lt_ge_cases n 32) as [I|I].
  - rewrite N.lnot_spec_low by exact I. now destruct (N.testbit b n), (N.testbit c n).
  - rewrite (bits_above_lt b 32 n B I). reflexivity.
Qed.
Lemma maj_ok b c d : N.lor (N.land b c) (N.land (N.lor b c) d) = Maj b c d.
Proof.
  unfold Maj. apply N.bits_inj. intro n. rewrite !N.lxor_spec, !N.lor_spec, !N.land_spec, N.lor_spec.
  now destruct (N.testbit b n), (N.testbit c n), (N.testbit d n).
Qed.

Definition vword (s : vars) : Prop := let '(a, b, c, d, e) := s in word a /\ word b /\ word c /\ word d /\ word e.
Lemma rol_30_word b : word b -> word (rol 30 b).
Proof. intros B. unfold word. rewrite <- rotr32_2 by exact B. apply w32_lt. Qed.
Lemma mod_word x : word (x mod W32).
Proof. apply N.mod_lt. discriminate. Qed.

(** [r], the words returned by code that continues after round t, are those of SHA-1. *)
Section Step.
Variable A : Type.
Variable out : N -> N -> N -> N -> N -> A.
Definition same_result (r : A) (s : vars) : Prop :=
  let '(a, b, c, d, e) := s in vword s /\ r = out a b c d e.
Definition step_lemma (sec : N -> N -> N -> N -> N -> N -> N * N) (t : nat) : Prop :=
  forall W x l a b c d e (K : N -> N -> A), word a -> word b -> x = nth t W 0 ->
  (forall T B, word T -> word B -> same_result (K T B) (fold_left (round W) l (T, a, B, c, d))) ->
  same_result (let '(T, B) := sec a b c d e x in K T B) (fold_left (round W) (t :: l) (a, b, c, d, e)).
Lemma step_1 t : Nat.ltb t 20 = true -> step_lemma section1_calc t.
Proof.
  intros Q1 W x l a b c d e K A0 B0 X H. subst x.
  unfold section1_calc. rewrite rotr32_2, rotl32_5 by assumption. rewrite ch_ok by exact B0.
  cbn [fold_left]. unfold round at 2, sha_f, sha_k. rewrite Q1.
  apply H; [apply mod_word|apply rol_30_word, B0].
Qed.
Lemma step_2 t : Nat.ltb t 20 = false -> Nat.ltb t 40 = true -> step_lemma section2_calc t.
Proof.
  intros Q1 Q2 W x l a b c d e K A0 B0 X H. subst x.
  unfold section2_calc. rewrite rotr32_2, rotl32_5 by assumption.
  cbn [fold_left]. unfold round at 2, sha_f, sha_k. rewrite Q1, Q2.
  apply H; [apply mod_word|apply rol_30_word, B0].
Qed.
Lemma step_3 t : Nat.ltb t 20 = false -> Nat.ltb t 40 = false -> Nat.ltb t 60 = true -> step_lemma section3_calc t.
Proof.
  intros Q1 Q2 Q3 W x l a b c d e K A0 B0 X H. subst x.
  unfold section3_calc. rewrite rotr32_2, rotl32_5 by assumption. rewrite maj_ok.
  cbn [fold_left]. unfold round at 2, sha_f, sha_k. rewrite Q1, Q2, Q3.
  apply H; [apply mod_word|apply rol_30_word, B0].
Qed.
Lemma step_4 t : Nat.ltb t 20 = false -> Nat.ltb t 40 = false -> Nat.ltb t 60 = false -> step_lemma section4_calc t.
Proof.
  intros Q1 Q2 Q3 W x l a b c d e K A0 B0 X H. subst x.
  unfold section4_calc. rewrite rotr32_2, rotl32_5 by assumption.
  cbn [fold_left]. unfold round at 2, sha_f, sha_k. rewrite Q1, Q2, Q3.
  apply H; [apply mod_word|apply rol_30_word, B0].
Qed.
End Step.

Ltac one_round lem t :=
  match goal with
  | |- same_result _ _ (match ?s with (x, y) => @?K x y end) (fold_left (round ?W) (_ :: ?l) _) =>
    match s with _ ?a ?b ?c ?d ?e ?x =>
    refine (lem _ _ t _ W x l a b c d e K _ _ _ _) || refine (lem _ _ t _ _ W x l a b c d e K _ _ _ _)
    || refine (lem _ _ t _ _ _ W x l a b c d e K _ _ _ _)
    end
  end;
  [reflexivity ..|assumption|assumption|match goal with Hw : forall i, _ |- _ => apply Hw; clear; lia end|];
  let T := fresh "T" in let B := fresh "B" in
  intros T B ? ?; cbv beta.

Lemma pre_rounds_ok W w a b c d e : (forall i, (i < 9)%nat -> w i = nth i W 0) -> vword (a, b, c, d, e) ->
  same_result _ (fun a b c d e => [a; b; c; d; e]) (pre_rounds w a b c d e) (fold_left (round W) (seq 0 9) (a, b, c, d, e)).
Proof.
  intros Hw (A & B & C & D & E). unfold pre_rounds, seq.
  one_round step_1 0%nat. one_round step_1 1%nat. one_round step_1 2%nat. one_round step_1 3%nat.
  one_round step_1 4%nat. one_round step_1 5%nat. one_round step_1 6%nat. one_round step_1 7%nat.
  one_round step_1 8%nat.
  split; [|reflexivity]. repeat split; assumption.
Qed.
Lemma hash_rounds_ok W w a b c d e : (forall i, (9 <= i < 80)%nat -> w i = nth i W 0) -> vword (a, b, c, d, e) ->
  same_result _ (fun a b c d e => (a, b)) (hash_rounds w a b c d e) (fold_left (round W) (seq 9 71) (a, b, c, d, e)).
Proof.
  intros Hw (A & B & C & D & E). unfold hash_rounds, seq.
  one_round step_1 9%nat. one_round step_1 10%nat. one_round step_1 11%nat. one_round step_1 12%nat.
  one_round step_1 13%nat. one_round step_1 14%nat. one_round step_1 15%nat. one_round step_1 16%nat.
  one_round step_1 17%nat. one_round step_1 18%nat. one_round step_1 19%nat. one_round step_2 20%nat.
  one_round step_2 21%nat. one_round step_2 22%nat. one_round step_2 23%nat. one_round step_2 24%nat.
  one_round step_2 25%nat. one_round step_2 26%nat. one_round step_2 27%nat. one_round step_2 28%nat.
  one_round step_2 29%nat. one_round step_2 30%nat. one_round step_2 31%nat. one_round step_2 32%nat.
  one_round step_2 33%nat. one_round step_2 34%nat. one_round step_2 35%nat. one_round step_2 36%nat.
  one_round step_2 37%nat. one_round step_2 38%nat. one_round step_2 39%nat. one_round step_3 40%nat.
  one_round step_3 41%nat. one_round step_3 42%nat. one_round step_3 43%nat. one_round step_3 44%nat.
  one_round step_3 45%nat. one_round step_3 46%nat. one_round step_3 47%nat. one_round step_3 48%nat.
  one_round step_3 49%nat. one_round step_3 50%nat. one_round step_3 51%nat. one_round step_3 52%nat.
  one_round step_3 53%nat. one_round step_3 54%nat. one_round step_3 55%nat. one_round step_3 56%nat.
  one_round step_3 57%nat. one_round step_3 58%nat. one_round step_3 59%nat. one_round step_4 60%nat.
  one_round step_4 61%nat. one_round step_4 62%nat. one_round step_4 63%nat. one_round step_4 64%nat.
  one_round step_4 65%nat. one_round step_4 66%nat. one_round step_4 67%nat. one_round step_4 68%nat.
  one_round step_4 69%nat. one_round step_4 70%nat. one_round step_4 71%nat. one_round step_4 72%nat.
  one_round step_4 73%nat. one_round step_4 74%nat. one_round step_4 75%nat. one_round step_4 76%nat.
  one_round step_4 77%nat. one_round step_4 78%nat. one_round step_4 79%nat.
  split; [|reflexivity]. repeat split; assumption.
Qed.
