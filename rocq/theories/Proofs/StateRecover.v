(** Enough outputs of a block twister determine all later ones, whatever its state. *)
From Coq Require Import NArith Arith List Lia.
From Verif Require Import Base.Word Base.WordLemmas Model.MT Model.SFMT Spec.MTSpec Spec.MTHistory
  Spec.SFMTSpec Spec.SFMTHistory Spec.ObjectSpec Proofs.MTProofs Proofs.MTFinal Proofs.SFMTProofs
  Proofs.SFMTShuffle Proofs.SFMTFinal.
Import ListNotations.
Ltac Zify.zify_post_hook ::= idtac.
Open Scope N_scope.

(** ** Mersenne Twister *)
Section Win.
  Variable st : list N.
  Hypothesis Hl : length st = 624%nat.
  Definition gwin (k : nat) : list N := Nat.iter k win_step st.
  Definition gseq (k : nat) : N := aget (gwin k) 0.
  Lemma gwin_S k : gwin (S k) = win_step (gwin k).
  Proof. reflexivity. Qed.
  Lemma gwin_length k : length (gwin k) = 624%nat.
  Proof.
    induction k; [exact Hl|]. rewrite gwin_S, win_step_length; [assumption|]. lia.
  Qed.
  Lemma gwin_shift k j : (S j < 624)%nat -> aget (gwin (S k)) j = aget (gwin k) (S j).
  Proof.
    intros Hj. pose proof (gwin_length k) as L. rewrite gwin_S. unfold win_step, aget.
    destruct (gwin k) as [|h t]; [simpl in L; lia|]. cbn [tl length] in *. rewrite app_nth1 by lia. reflexivity.
  Qed.
  Lemma gwin_last k : aget (gwin (S k)) 623 =
    N.lxor (aget (gwin k) 397) (mt19937_twist (aget (gwin k) 0) (aget (gwin k) 1)).
  Proof.
    pose proof (gwin_length k) as L. rewrite gwin_S. unfold win_step.
    unfold aget at 1. rewrite app_nth2; destruct (gwin k) as [|h t]; cbn [tl length] in *; try lia.
    replace (623 - length t)%nat with 0%nat by lia. reflexivity.
  Qed.
  Lemma gwin_seq j : forall k, (j < 624)%nat -> aget (gwin k) j = gseq (k + j).
  Proof.
    induction j; intros k Hj; [now rewrite Nat.add_0_r|].
    rewrite <- gwin_shift by assumption. rewrite IHj by lia. f_equal. lia.
  Qed.
  Lemma gseq_rec : linear_rec gseq.
  Proof.
    intros i. pose proof (gwin_seq 623 (S i) ltac:(lia)) as E.
    replace (i + 624)%nat with (S i + 623)%nat by lia. rewrite <- E, gwin_last.
    rewrite !gwin_seq by lia. rewrite Nat.add_0_r. reflexivity.
  Qed.
  Lemma gseq_holds : holds gseq st 0.
  Proof. split; [exact Hl|]. intros j Hj. exact (gwin_seq j 0 Hj). Qed.
End Win.

Lemma mt_object_at self : mt_object self -> exists x p, linear_rec x /\ at_word x self p.
Proof.
  intros [Hl Hi]. exists (gseq (mt_state self)), (N.to_nat (mt_index self)).
  split; [now apply gseq_rec|]. exists 0%nat. split; [now apply gseq_holds|]. now split.
Qed.
Lemma map_seq_ext {A} (f g : nat -> A) n : map f (seq 0 n) = map g (seq 0 n) <-> forall i, (i < n)%nat -> f i = g i.
Proof.
  split.
  - intros H i Hi. assert (E : nth_error (map f (seq 0 n)) i = nth_error (map g (seq 0 n)) i) by now rewrite H.
    assert (S : nth_error (seq 0 n) i = Some i).
    { rewrite (nth_error_nth' _ 0%nat) by now rewrite seq_length. now rewrite seq_nth. }
    rewrite (map_nth_error f _ _ S), (map_nth_error g _ _ S) in E. now injection E.
  - intros H. apply map_ext_in. intros i Hi. apply in_seq in Hi. apply H. lia.
Qed.
Lemma values_eq (f g : nat -> N) n : map (fun i => OVal (f i)) (seq 0 n) = map (fun i => OVal (g i)) (seq 0 n) ->
  forall i, (i < n)%nat -> f i = g i.
Proof.
  intros H i Hi. pose proof (proj1 (map_seq_ext (fun i => OVal (f i)) (fun i => OVal (g i)) n) H i Hi) as F.
  cbv beta in F. now injection F.
Qed.
Lemma words_go_on x y p q : linear_rec x -> linear_rec y ->
  (forall i, (i < 624)%nat -> x (p + i)%nat = y (q + i)%nat) -> forall i, x (p + i)%nat = y (q + i)%nat.
Proof.
  intros Hx Hy H. assert (G : forall n i, (i < n + 624)%nat -> x (p + i)%nat = y (q + i)%nat).
  { induction n; intros i Hi; [apply H; lia|].
    destruct (Nat.lt_ge_cases i 624) as [L|L]; [now apply H|].
    pose proof (Hx (p + (i - 624))%nat) as Ex. pose proof (Hy (q + (i - 624))%nat) as Ey.
    replace (p + (i - 624) + 624)%nat with (p + i)%nat in Ex by lia.
    replace (q + (i - 624) + 624)%nat with (q + i)%nat in Ey by lia.
    rewrite Ex, Ey. rewrite <- !Nat.add_assoc. rewrite !IHn by lia. reflexivity. }
  intros i. apply (G i). lia.
Qed.
Lemma mt_outputs_determine_n n m m' self self' : (624 <= n)%nat -> mt_object self -> mt_object self' ->
  mt_outputs_of m self n = mt_outputs_of m' self' n ->
  forall k, mt_outputs_of m self k = mt_outputs_of m' self' k.
Proof.
  intros Hn H H' E k. destruct (mt_object_at self H) as (x & p & Rx & Ax). destruct (mt_object_at self' H') as (y & q & Ry & Ay).
  unfold mt_outputs_of in *. rewrite (outputs_at x Rx m n _ _ Ax), (outputs_at y Ry m' n _ _ Ay) in E.
  rewrite (outputs_at x Rx m k _ _ Ax), (outputs_at y Ry m' k _ _ Ay).
  pose proof (values_eq (fun i => mt19937_temper (x (p + i)%nat)) (fun i => mt19937_temper (y (q + i)%nat)) n E) as F.
  cbv beta in F. apply map_seq_ext. intros i _. do 2 f_equal.
  apply (words_go_on x y p q Rx Ry). intros j Hj. apply temper_inj, F. lia.
Qed.
Lemma mt_outputs_determine m m' self self' : mt_object self -> mt_object self' ->
  mt_outputs_of m self 624 = mt_outputs_of m' self' 624 ->
  forall k, mt_outputs_of m self k = mt_outputs_of m' self' k.
Proof. exact (mt_outputs_determine_n 624 m m' self self' (le_n 624)). Qed.

(** ** SFMT *)
Lemma sfmt_object_at self : sfmt_object self ->
  exists W q, srec W /\ (forall k, W k < 2^128) /\ sat W self q /\ Nat.odd q = sfmt_in_middle self.
Proof.
  intros (Hl & Hw & Hi & He). apply N.even_spec in He as [h Eh].
  exists (sseq (pack (sfmt_state self))), (N.to_nat h).
  split; [apply sseq_rec, pack_length|]. split; [now apply pack_lt|]. split.
  - exists 0%nat. split; [exact Hl|]. split; [apply sholds_pack; [lia|exact Hw]|]. split; [exact Hi|]. lia.
  - unfold sfmt_in_middle. rewrite Eh.
    replace (2 * h mod 4) with (2 * (h mod 2)) by (change 4 with (2 * 2); rewrite N.mul_mod_distr_l by discriminate; reflexivity).
    destruct (N.even h) eqn:E.
    + apply N.even_spec in E as [k ->]. replace (2 * k mod 2) with 0 by (rewrite N.mul_comm, N.mod_mul by discriminate; reflexivity).
      change (2 * 0 =? 2) with false. rewrite <- Nat.negb_even. apply Bool.negb_false_iff, Nat.even_spec. exists (N.to_nat k). lia.
    + assert (O : N.odd h = true) by (rewrite <- N.negb_even, E; reflexivity). apply N.odd_spec in O as [k ->].
      replace ((2 * k + 1) mod 2) with 1 by (rewrite N.add_comm, N.mul_comm, N.mod_add by discriminate; reflexivity).
      change (2 * 1 =? 2) with true. apply Nat.odd_spec. exists (N.to_nat k). lia.
Qed.
Lemma even_2 a : Nat.even (2 * a) = true.
Proof. apply Nat.even_spec. now exists a. Qed.
Lemma even_S2 a : Nat.even (S (2 * a)) = false.
Proof. rewrite Nat.even_succ, <- Nat.negb_even, even_2. reflexivity. Qed.
Lemma half64_low W p : half64 W (2 * p) = W p mod 2^64.
Proof. unfold half64. now rewrite even_2, Nat.div2_double. Qed.
Lemma half64_high W p : half64 W (S (2 * p)) = W p / 2^64.
Proof. unfold half64. now rewrite even_S2, Nat.div2_succ_double. Qed.
Lemma half64_eq W V p q : half64 W (2 * p) = half64 V (2 * q) ->
  half64 W (S (2 * p)) = half64 V (S (2 * q)) -> W p = V q.
Proof.
  rewrite !half64_low, !half64_high. intros E F.
  rewrite (N.div_mod (W p) (2^64)) by discriminate. rewrite (N.div_mod (V q) (2^64)) by discriminate.
  now rewrite E, F.
Qed.
Lemma swords_go_on W V p q : srec W -> srec V ->
  (forall i, (i < 156)%nat -> W (p + i)%nat = V (q + i)%nat) -> forall i, W (p + i)%nat = V (q + i)%nat.
Proof.
  intros Hx Hy H. assert (G : forall n i, (i < n + 156)%nat -> W (p + i)%nat = V (q + i)%nat).
  { induction n; intros i Hi; [apply H; lia|].
    destruct (Nat.lt_ge_cases i 156) as [L|L]; [now apply H|].
    pose proof (Hx (p + (i - 156))%nat) as Ex. pose proof (Hy (q + (i - 156))%nat) as Ey.
    replace (p + (i - 156) + 156)%nat with (p + i)%nat in Ex by lia.
    replace (q + (i - 156) + 156)%nat with (q + i)%nat in Ey by lia.
    rewrite Ex, Ey. rewrite <- !Nat.add_assoc. rewrite !IHn by lia. reflexivity. }
  intros i. apply (G i). lia.
Qed.
(** The low half of the oldest word can be found from that of the newest. *)
Lemma recursion_low a a' b c d : sfmt_recursion a b c d mod 2^64 = sfmt_recursion a' b c d mod 2^64 ->
  a mod 2^64 = a' mod 2^64.
Proof.
  intros E.
  assert (S : forall n, n < 64 -> N.testbit a n = N.testbit a' n).
  { intros n. induction n as [n IH] using (well_founded_induction N.lt_wf_0). intros Hn.
    apply (f_equal (fun v => N.testbit v n)) in E. cbv beta in E.
    rewrite !N.mod_pow2_bits_low in E by exact Hn. unfold sfmt_recursion in E.
    assert (M : forall u, N.testbit (u * 2^8 mod 2^128) n = if n <? 8 then false else N.testbit u (n - 8)).
    { intros u. rewrite N.mod_pow2_bits_low by lia. destruct (N.ltb_spec n 8).
      - now apply N.mul_pow2_bits_low.
      - now apply N.mul_pow2_bits_high. }
    rewrite (N.lxor_spec a), (N.lxor_spec a'), (N.lxor_spec (a * _ mod _)), (N.lxor_spec (a' * _ mod _)), !M in E.
    assert (K : (if n <? 8 then false else N.testbit a (n - 8)) = (if n <? 8 then false else N.testbit a' (n - 8))).
    { destruct (N.ltb_spec n 8); [reflexivity|]. apply IH; lia. }
    rewrite K in E. set (k := if n <? 8 then _ else _) in E. set (r := N.testbit (N.lxor _ _) n) in E. clearbody k r.
    destruct (N.testbit a n), (N.testbit a' n), k, r; now cbn in E. }
  apply N.bits_inj. intro n. destruct (N.lt_ge_cases n 64).
  - rewrite !N.mod_pow2_bits_low by assumption. now apply S.
  - now rewrite !N.mod_pow2_bits_high by assumption.
Qed.
Lemma halves_go_on W V p q : srec W -> srec V -> Nat.odd p = Nat.odd q ->
  (forall i, (i < 312)%nat -> half64 W (p + i) = half64 V (q + i)) ->
  forall i, half64 W (p + i) = half64 V (q + i).
Proof.
  intros Hx Hy O H.
  assert (C : exists d a b, ((d = 0 \/ d = 1) /\ p = 2 * a + d /\ q = 2 * b + d)%nat).
  { destruct (Nat.odd p) eqn:Op; symmetry in O.
    - apply Nat.odd_spec in Op as [a ->]. apply Nat.odd_spec in O as [b ->]. exists 1%nat, a, b. lia.
    - rewrite <- Nat.negb_even in Op, O. apply Bool.negb_false_iff, Nat.even_spec in Op as [a ->].
      apply Bool.negb_false_iff, Nat.even_spec in O as [b ->]. exists 0%nat, a, b. lia. }
  destruct C as (d & a & b & Hd & Hp & Hq). clear O.
  assert (K : forall i, (d <= i < 156)%nat -> W (a + i)%nat = V (b + i)%nat).
  { intros i Hi. apply half64_eq.
    - replace (2 * (a + i))%nat with (p + (2 * i - d))%nat by lia.
      replace (2 * (b + i))%nat with (q + (2 * i - d))%nat by lia. apply H. lia.
    - replace (S (2 * (a + i)))%nat with (p + (2 * i - d + 1))%nat by lia.
      replace (S (2 * (b + i)))%nat with (q + (2 * i - d + 1))%nat by lia. apply H. lia. }
  assert (G : forall i, W (a + i)%nat = V (b + i)%nat).
  { apply swords_go_on; try assumption. intros i Hi.
    destruct (Nat.le_gt_cases d i) as [L|L]; [apply K; lia|].
    assert (d = 1%nat) by lia. assert (i = 0%nat) by lia. subst d i. rewrite !Nat.add_0_r.
    pose proof (H 311%nat ltac:(lia)) as E.
    replace (p + 311)%nat with (2 * (a + 156))%nat in E by lia.
    replace (q + 311)%nat with (2 * (b + 156))%nat in E by lia.
    rewrite !half64_low, Hx, Hy, !K in E by lia. apply recursion_low in E.
    apply half64_eq; [now rewrite !half64_low|].
    pose proof (H 0%nat ltac:(lia)) as F.
    replace (p + 0)%nat with (S (2 * a))%nat in F by lia. replace (q + 0)%nat with (S (2 * b))%nat in F by lia. exact F. }
  intros i. destruct (Nat.Even_or_Odd (d + i)) as [[k E]|[k E]].
  - replace (p + i)%nat with (2 * (a + k))%nat by lia. replace (q + i)%nat with (2 * (b + k))%nat by lia.
    now rewrite !half64_low, G.
  - replace (p + i)%nat with (S (2 * (a + k)))%nat by lia. replace (q + i)%nat with (S (2 * (b + k)))%nat by lia.
    now rewrite !half64_high, G.
Qed.
Lemma sfmt_outputs_determine_n n m m' self self' : n = 312%nat -> sfmt_object self -> sfmt_object self' ->
  sfmt_in_middle self = sfmt_in_middle self' ->
  sfmt_outputs_of m self n = sfmt_outputs_of m' self' n ->
  forall k, sfmt_outputs_of m self k = sfmt_outputs_of m' self' k.
Proof.
  intros Hn H H' P E k.
  destruct (sfmt_object_at self H) as (W & p & Rw & Bw & Aw & Ow).
  destruct (sfmt_object_at self' H') as (V & q & Rv & Bv & Av & Ov).
  rewrite (sfmt_outputs_at W Rw Bw m n _ _ Aw), (sfmt_outputs_at V Rv Bv m' n _ _ Av) in E.
  rewrite (sfmt_outputs_at W Rw Bw m k _ _ Aw), (sfmt_outputs_at V Rv Bv m' k _ _ Av).
  pose proof (values_eq (fun i => half64 W (p + i)) (fun i => half64 V (q + i)) n E) as F. cbv beta in F.
  apply map_seq_ext. intros i _. f_equal. apply halves_go_on; try assumption; [congruence|].
  rewrite <- Hn. exact F.
Qed.
Lemma sfmt_outputs_determine m m' self self' : sfmt_object self -> sfmt_object self' ->
  sfmt_in_middle self = sfmt_in_middle self' ->
  sfmt_outputs_of m self 312 = sfmt_outputs_of m' self' 312 ->
  forall k, sfmt_outputs_of m self k = sfmt_outputs_of m' self' k.
Proof. exact (sfmt_outputs_determine_n 312 m m' self self' eq_refl). Qed.

(** ** objects made by the constructor and the methods *)
Lemma mt_reached_object m self : mt_reached m self -> mt_object self.
Proof. intros H. destruct (reached_inv m self H) as (seed & p & b & [Hl _] & Hi & _). now split. Qed.
Lemma sfmt_reached_object m self : sfmt_reached m self -> sfmt_object self.
Proof.
  intros H. destruct (sreached_inv m self H) as (seed & q & Ha).
  split; [|split; [|split]].
  - destruct Ha as (b & Hl & _). exact Hl.
  - change (2^32) with 4294967296. eapply sat_words; [|exact Ha]. apply SFMT_lt with seed. apply sfmt_exists.
  - destruct Ha as (b & _ & _ & Hi & _). exact Hi.
  - destruct Ha as (b & _ & _ & _ & E). apply N.even_spec. exists (N.of_nat (q - 2 * b)). lia.
Qed.
