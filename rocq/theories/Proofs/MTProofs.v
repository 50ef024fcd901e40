(** Lemmas about Model/MT.v. *)
From Coq Require Import NArith ZArith List Bool Lia Btauto.
From Coq Require Import ZifyBool ZifyNat ZifyN.
From Verif Require Import Base.Word Base.WordLemmas Model.MT Spec.MTSpec.
Import ListNotations.
Open Scope N_scope.

Local Notation M32 := 4294967296.

Lemma upper_bit u : N.land u 0x80000000 = (u / 2^31) mod 2 * 2^31.
Proof.
  rewrite <- N.shiftl_mul_pow2, <- N.shiftr_div_pow2.
  replace (N.shiftr u 31 mod 2) with (N.land (N.shiftr u 31) (N.ones 1)) by (rewrite N.land_ones; reflexivity).
  apply N.bits_inj; intro n. autorewrite with wbits.
  change 0x80000000 with (N.shiftl 1 31). rewrite shiftl_bits.
  destruct (N.leb_spec 31 n); cbn [andb]; [|apply andb_false_r].
  replace (n - 31 + 31) with n by lia.
  reflexivity.
Qed.

Lemma lower_bits v : N.land v 0x7FFFFFFF = v mod 2^31.
Proof. change 0x7FFFFFFF with (N.ones 31). apply N.land_ones. Qed.

Lemma mt_y_spec u v :
  N.lor (N.land u 0x80000000) (N.land v 0x7FFFFFFF) = (u / 2^31) mod 2 * 2^31 + v mod 2^31.
Proof.
  rewrite <- upper_bit, <- lower_bits. apply lor_add.
  apply N.bits_inj; intro n. autorewrite with wbits.
  assert (N.testbit 0x80000000 n && N.testbit 0x7FFFFFFF n = false) as E.
  { rewrite <- N.land_spec. change (N.land _ _) with 0. apply N.bits_0. }
  destruct (N.testbit u n), (N.testbit v n), (N.testbit 0x80000000 n), (N.testbit 0x7FFFFFFF n);
    simpl in *; congruence.
Qed.

Lemma land_1_odd y : N.land y 1 = N.b2n (N.odd y).
Proof. change 1 with (N.ones 1). rewrite N.land_ones. change (2^1) with 2. now rewrite <- N.bit0_mod, N.bit0_odd. Qed.

Lemma mt_word_spec st i j k :
  mt_word st i j k = N.lxor (aget st k) (mt19937_twist (aget st i) (aget st j)).
Proof.
  unfold mt_word, mt19937_twist. rewrite mt_y_spec.
  set (y := _ + _). rewrite land_1_odd, <- N.div2_spec, N.div2_div.
  rewrite N.lxor_comm. destruct (N.odd y); [reflexivity|].
  cbn. now rewrite N.lxor_0_r.
Qed.

Lemma mt_temper_spec y : mt_temper y = mt19937_temper y.
Proof.
  unfold mt_temper, mt19937_temper.
  assert (E : forall z k c, c < 2^32 -> N.land (N.shiftl z k) c = N.land ((z * 2^k) mod 2^32) c).
  { intros z k c Hc. rewrite <- N.shiftl_mul_pow2. apply N.bits_inj; intro n.
    change ((N.shiftl z k) mod 2^32) with (w32 (N.shiftl z k)).
    rewrite !N.land_spec, w32_bits. destruct (N.ltb_spec n 32); [reflexivity|].
    rewrite (bits_above_lt c 32) by assumption. btauto. }
  rewrite !E by reflexivity. now rewrite !N.shiftr_div_pow2.
Qed.

Lemma twist_lt u v : mt19937_twist u v < M32.
Proof.
  unfold mt19937_twist.
  set (y := (u / 2^31) mod 2 * 2^31 + v mod 2^31).
  assert (y < M32).
  { unfold y. pose proof (N.mod_lt (u / 2^31) 2 ltac:(lia)).
    pose proof (N.mod_lt v (2^31) ltac:(lia)). change (2^31) with 2147483648 in *. lia. }
  clearbody y. destruct (N.odd y); [apply lxor_lt32|]; lia.
Qed.

(** ** shuffle *)
Section Shuffle.
  Variable x : nat -> N.
  Hypothesis rec : forall i,
    x (i + 624)%nat = N.lxor (x (i + 397)%nat) (mt19937_twist (x i) (x (i + 1)%nat)).

  (** The array holds words b .. b+623. *)
  Definition holds (st : list N) (b : nat) : Prop :=
    length st = 624%nat /\ forall j, (j < 624)%nat -> aget st j = x (b + j)%nat.
  (** Words below i have been replaced by the next block. *)
  Definition partly (b i : nat) (st : list N) : Prop :=
    length st = 624%nat /\
    forall j, (j < 624)%nat -> aget st j = if (j <? i)%nat then x (b + 624 + j)%nat else x (b + j)%nat.

  Lemma partly_step b i st v : (i < 624)%nat -> partly b i st -> v = x (b + 624 + i)%nat ->
    partly b (S i) (aset st i v).
  Proof.
    intros Hi [Hl H] ->. split; [now rewrite aset_length|].
    intros j Hj. rewrite aget_aset by lia. rewrite H by assumption.
    destruct (Nat.eqb_spec i j), (Nat.ltb_spec j i), (Nat.ltb_spec j (S i)); try lia; subst; auto.
  Qed.

  Lemma shuffle_holds b st : holds st b -> holds (mt_shuffle_state st) (b + 624).
  Proof.
    intros [Hl H]. unfold mt_shuffle_state.
    assert (H0 : partly b 0 st).
    { split; [assumption|]. intros j Hj. rewrite H by assumption. reflexivity. }
    set (st1 := for_range 227 0 _ st).
    assert (H1 : partly b 227 st1).
    { apply (for_range_inv (fun i s => partly b i s) _ 227 0 st H0).
      intros i s Hi Hs. apply partly_step; [lia|assumption|].
      rewrite mt_word_spec. destruct Hs as [_ Hs]. rewrite !Hs by lia.
      destruct (Nat.ltb_spec i i), (Nat.ltb_spec (i + 1) i), (Nat.ltb_spec (i + 397) i); try lia.
      replace (b + 624 + i)%nat with (b + i + 624)%nat by lia. rewrite rec.
      f_equal; [f_equal; lia|]. f_equal; f_equal; lia. }
    set (st2 := for_range 396 227 _ st1).
    assert (H2 : partly b 623 st2).
    { apply (for_range_inv (fun i s => partly b i s) _ 396 227 st1 H1).
      intros i s Hi Hs. apply partly_step; [lia|assumption|].
      rewrite mt_word_spec. destruct Hs as [_ Hs]. rewrite !Hs by lia.
      destruct (Nat.ltb_spec i i), (Nat.ltb_spec (i + 1) i), (Nat.ltb_spec (i - 227) i); try lia.
      replace (b + 624 + i)%nat with (b + i + 624)%nat by lia. rewrite rec.
      f_equal; [f_equal; lia|]. f_equal; f_equal; lia. }
    assert (H3 : partly b 624 (aset st2 623 (mt_word st2 623 0 396))).
    { apply partly_step; [lia|assumption|].
      rewrite mt_word_spec. destruct H2 as [_ Hs]. rewrite !Hs by lia.
      cbn [Nat.ltb Nat.leb].
      replace (b + 624 + 623)%nat with (b + 623 + 624)%nat by lia. rewrite rec.
      f_equal; [f_equal; lia|]. f_equal; f_equal; lia. }
    destruct H3 as [L3 H3]. split; [assumption|].
    intros j Hj. rewrite H3 by assumption. destruct (Nat.ltb_spec j 624); [reflexivity|lia].
  Qed.

  (** The next output of the object is made from word [p]. *)
  Definition at_word (self : mt) (p : nat) : Prop :=
    exists b, holds (mt_state self) b /\ mt_index self <= 624 /\
              (b + N.to_nat (mt_index self) = p)%nat.

  Lemma next_at_word self p : at_word self p ->
    at_word (fst (mt_next self)) (S p) /\ snd (mt_next self) = mt19937_temper (x p).
  Proof.
    intros (b & Hh & Hi & Hp). unfold mt_next.
    destruct (N.eqb_spec (mt_index self) 624) as [E|E].
    - cbn [fst snd mt_shuffle mt_state mt_index].
      pose proof (shuffle_holds b _ Hh) as Hs. split.
      + exists (b + 624)%nat. cbn [mt_state mt_index]. split; [assumption|]. cbn. lia.
      + rewrite mt_temper_spec. destruct Hs as [_ Hs]. rewrite Hs by (cbn; lia).
        do 2 f_equal. cbn. lia.
    - cbn [fst snd]. rewrite w16_small by lia. split.
      + exists b. cbn [mt_state mt_index]. split; [assumption|]. lia.
      + rewrite mt_temper_spec. destruct Hh as [_ Hh]. rewrite Hh by lia.
        do 2 f_equal. lia.
  Qed.

  Lemma shuffle_at_word self p : at_word self p ->
    at_word (mt_shuffle self) (p - N.to_nat (mt_index self) + 624).
  Proof.
    intros (b & Hh & Hi & Hp). exists (b + 624)%nat.
    split; [now apply shuffle_holds|]. cbn [mt_shuffle mt_index]. lia.
  Qed.

  Lemma advance_loop_ok n : forall self b adv,
    holds (mt_state self) b -> adv / 624 = N.of_nat n ->
    exists self' b', while_loop n (fun '(_, adv) => 624 <=? adv)
       (fun '(self, adv) => (mt_shuffle self, adv - 624)) (self, adv) = Ok (self', adv mod 624) /\
       holds (mt_state self') b' /\ (b' = b + 624 * n)%nat.
  Proof.
    induction n as [|n IH]; intros self b adv Hh Hd; cbn [while_loop].
    - destruct (N.leb_spec 624 adv); [lia|]. exists self, b.
      rewrite N.mod_small by assumption. split; [reflexivity|]. split; [assumption|lia].
    - destruct (N.leb_spec 624 adv); [|rewrite N.div_small in Hd by assumption; lia].
      destruct (IH (mt_shuffle self) (b + 624)%nat (adv - 624)) as (s' & b' & E & H1 & H2).
      + now apply shuffle_holds.
      + lia.
      + exists s', b'. split; [|split; [assumption|lia]].
        etransitivity; [exact E|]. do 2 f_equal. lia.
  Qed.

  (** The sum that [advance] works with. *)
  Definition adv_sum (m : mode) (adv index : N) : N :=
    match m with NumPy => (adv mod M32 + index) mod M32 | Numba => adv mod M32 + index end.

  Lemma advance_at_word m self p adv : at_word self p ->
    exists self', mt_advance m self adv = Ok self' /\
      at_word self' (p - N.to_nat (mt_index self) + N.to_nat (adv_sum m adv (mt_index self))).
  Proof.
    intros (b & Hh & Hi & Hp). unfold mt_advance.
    assert (E : match m with NumPy => w32 (w32 adv + mt_index self)
                           | Numba => w64 (w32 adv + mt_index self) end
                = adv_sum m adv (mt_index self)).
    { destruct m; [reflexivity|]. unfold adv_sum. rewrite w64_small; [reflexivity|].
      pose proof (w32_lt adv). lia. }
    rewrite E. set (a := adv_sum m adv (mt_index self)).
    destruct (advance_loop_ok (N.to_nat (a / 624)) self b a Hh) as (s' & b' & El & H1 & H2); [lia|].
    rewrite El. cbn [rmap]. eexists; split; [reflexivity|].
    exists b'. cbn [mt_state mt_index]. split; [assumption|].
    rewrite w16_small by lia. split; [lia|]. unfold a in *. lia.
  Qed.
End Shuffle.

(** ** re_init *)
Lemma re_init_at_word x self seed : MT19937 seed x -> length (mt_state self) = 624%nat ->
  at_word x (mt_re_init self seed) 624.
Proof.
  intros Hx Hl. unfold mt_re_init.
  set (body := fun i '(seed, st) => _).
  set (P := fun (i : nat) (s : N * list N) =>
              fst s = x (i - 1)%nat /\ length (snd s) = 624%nat /\
              forall j, (j < i)%nat -> aget (snd s) j = x j).
  assert (HP : P (1 + 623)%nat (for_range 623 1 body (w32 seed, aset (mt_state self) 0 (w32 seed)))).
  { apply for_range_inv.
    - unfold P; cbn [fst snd]. rewrite aset_length. split; [|split; [assumption|]].
      + symmetry. apply (mt19937_first _ _ Hx).
      + intros j Hj. replace j with 0%nat by lia. rewrite aget_aset_eq by lia.
        symmetry. apply (mt19937_first _ _ Hx).
    - intros i [s st] Hi (H1 & H2 & H3). unfold P, body; cbn [fst snd] in *.
      assert (E : mt_init_word s i = x i).
      { destruct i as [|i]; [lia|]. rewrite (mt19937_init _ _ Hx) by lia.
        unfold mt_init_word. rewrite H1. replace (S i - 1)%nat with i by lia.
        rewrite N.shiftr_div_pow2. reflexivity. }
      rewrite E. replace (S i - 1)%nat with i by lia. rewrite aset_length.
      split; [reflexivity|]. split; [assumption|].
      intros j Hj. rewrite aget_aset by lia.
      destruct (Nat.eqb_spec i j) as [->|]; [reflexivity|]. apply H3. lia. }
  destruct (for_range 623 1 body _) as [s st]. destruct HP as (H1 & H2 & H3). cbn [fst snd] in *.
  exists 0%nat. cbn [mt_state mt_index]. split; [|split; [lia|reflexivity]].
  split; [assumption|]. intros j Hj. apply H3. lia.
Qed.

Lemma at_word_length x self p : at_word x self p -> length (mt_state self) = 624%nat.
Proof. intros (b & [H _] & _). exact H. Qed.

(** ** existence of the sequence: sliding window *)
Definition win_step (w : list N) : list N :=
  tl w ++ [N.lxor (aget w 397) (mt19937_twist (aget w 0) (aget w 1))].
Fixpoint init_words (n : nat) (i : nat) (s : N) : list N :=
  match n with O => [] | S n' => s :: init_words n' (S i) (mt_init_word s (S i)) end.
Definition win (seed : N) (k : nat) : list N := Nat.iter k win_step (init_words 624 0 (w32 seed)).
Definition mt19937_seq (seed : N) (k : nat) : N := aget (win seed k) 0.

Lemma init_words_length n : forall i s, length (init_words n i s) = n.
Proof. induction n; simpl; auto. Qed.
Lemma win_step_length w : (0 < length w)%nat -> length (win_step w) = length w.
Proof. unfold win_step. rewrite app_length. destruct w; cbn [tl length]; lia. Qed.
Lemma win_S seed k : win seed (S k) = win_step (win seed k).
Proof. unfold win. generalize (init_words 624 0 (w32 seed)). reflexivity. Qed.
Lemma win_0 seed : win seed 0 = init_words 624 0 (w32 seed).
Proof. unfold win. generalize (init_words 624 0 (w32 seed)). reflexivity. Qed.
Global Opaque win.
Lemma win_length seed k : length (win seed k) = 624%nat.
Proof.
  induction k; [rewrite win_0; apply init_words_length|].
  rewrite win_S, win_step_length; [assumption|]. rewrite IHk. apply Nat.lt_0_succ.
Qed.
Lemma win_shift seed k j : (S j < 624)%nat -> aget (win seed (S k)) j = aget (win seed k) (S j).
Proof.
  intros Hj. pose proof (win_length seed k) as L.
  rewrite win_S. unfold win_step, aget.
  destruct (win seed k) as [|h t]; [simpl in L; lia|]. cbn [tl length] in *.
  rewrite app_nth1 by lia. reflexivity.
Qed.
Lemma win_last seed k : aget (win seed (S k)) 623 =
  N.lxor (aget (win seed k) 397) (mt19937_twist (aget (win seed k) 0) (aget (win seed k) 1)).
Proof.
  pose proof (win_length seed k) as L.
  rewrite win_S. unfold win_step.
  unfold aget at 1. rewrite app_nth2; destruct (win seed k) as [|h t]; cbn [tl length] in *; try lia.
  replace (623 - length t)%nat with 0%nat by lia. reflexivity.
Qed.
Lemma win_seq seed j : forall k, (j < 624)%nat -> aget (win seed k) j = mt19937_seq seed (k + j).
Proof.
  induction j; intros k Hj.
  - now rewrite Nat.add_0_r.
  - rewrite <- win_shift by assumption. rewrite IHj by lia. f_equal. lia.
Qed.
Lemma init_words_nth n : forall i s j, (S j < n)%nat ->
  aget (init_words n i s) (S j) = mt_init_word (aget (init_words n i s) j) (S (i + j)).
Proof.
  induction n; intros i s j Hj; [lia|]. destruct j.
  - destruct n; [lia|]. cbn. now rewrite Nat.add_0_r.
  - change (aget (init_words (S n) i s) (S (S j))) with (aget (init_words n (S i) (mt_init_word s (S i))) (S j)).
    change (aget (init_words (S n) i s) (S j)) with (aget (init_words n (S i) (mt_init_word s (S i))) j).
    rewrite IHn by lia. do 2 f_equal. lia.
Qed.

Lemma mt19937_exists seed : MT19937 seed (mt19937_seq seed).
Proof.
  split.
  - unfold mt19937_seq. rewrite win_0. reflexivity.
  - intros i Hi. pose proof (win_seq seed (S i) 0 ltac:(lia)) as E1.
    pose proof (win_seq seed i 0 ltac:(lia)) as E0. cbn [Nat.add] in *.
    rewrite <- E1, <- E0. rewrite !win_0.
    rewrite init_words_nth by lia. unfold mt_init_word. rewrite N.shiftr_div_pow2. reflexivity.
  - intros i. pose proof (win_seq seed 623 (S i) ltac:(lia)) as E.
    replace (i + 624)%nat with (S i + 623)%nat by lia. rewrite <- E, win_last.
    rewrite !win_seq by lia. rewrite Nat.add_0_r. reflexivity.
Qed.

Lemma mt19937_unique seed x y : MT19937 seed x -> MT19937 seed y -> forall i, x i = y i.
Proof.
  intros Hx Hy i. induction i as [i IH] using (well_founded_induction lt_wf).
  destruct (Nat.lt_ge_cases i 624) as [Hi|Hi].
  - destruct i as [|i].
    + now rewrite (mt19937_first _ _ Hx), (mt19937_first _ _ Hy).
    + rewrite (mt19937_init _ _ Hx), (mt19937_init _ _ Hy) by lia. now rewrite !IH by lia.
  - replace i with (i - 624 + 624)%nat by lia.
    rewrite (mt19937_rec _ _ Hx), (mt19937_rec _ _ Hy). now rewrite !IH by lia.
Qed.

Lemma mt19937_lt seed x : MT19937 seed x -> forall i, x i < M32.
Proof.
  intros Hx i. induction i as [i IH] using (well_founded_induction lt_wf).
  destruct (Nat.lt_ge_cases i 624) as [Hi|Hi].
  - destruct i as [|i].
    + rewrite (mt19937_first _ _ Hx). apply N.mod_lt. lia.
    + rewrite (mt19937_init _ _ Hx) by lia. apply N.mod_lt. lia.
  - replace i with (i - 624 + 624)%nat by lia. rewrite (mt19937_rec _ _ Hx).
    apply lxor_lt32; [apply IH; lia|apply twist_lt].
Qed.

Lemma temper_lt y : y < M32 -> mt19937_temper y < M32.
Proof.
  intros Hy. rewrite <- mt_temper_spec. unfold mt_temper.
  repeat first [apply lxor_lt32 | apply shiftr_lt32 | apply land_lt32_r | assumption | reflexivity].
Qed.

(** ** no power-of-two period *)
Definition linear_rec (x : nat -> N) : Prop :=
  forall i, x (i + 624)%nat = N.lxor (x (i + 397)%nat) (mt19937_twist (x i) (x (i + 1)%nat)).

Definition A_times (y : N) : N := N.lxor (N.shiftr y 1) (if N.testbit y 0 then 0x9908B0DF else 0).
Lemma twist_A u v : mt19937_twist u v =
  A_times (N.lor (N.land u 0x80000000) (N.land v 0x7FFFFFFF)).
Proof.
  unfold mt19937_twist, A_times. rewrite mt_y_spec. set (y := _ + _).
  rewrite N.bit0_odd, <- N.div2_spec, N.div2_div. destruct (N.odd y); [reflexivity|].
  now rewrite N.lxor_0_r.
Qed.
Lemma A_times_lxor y z : A_times (N.lxor y z) = N.lxor (A_times y) (A_times z).
Proof.
  unfold A_times. rewrite N.shiftr_lxor, N.lxor_spec.
  destruct (N.testbit y 0), (N.testbit z 0); cbn [xorb];
    apply N.bits_inj; intro n; rewrite ?N.lxor_spec, ?N.bits_0; btauto.
Qed.
Lemma twist_lxor u v u' v' :
  mt19937_twist (N.lxor u u') (N.lxor v v') = N.lxor (mt19937_twist u v) (mt19937_twist u' v').
Proof.
  rewrite !twist_A, <- A_times_lxor. f_equal.
  apply N.bits_inj; intro n. rewrite ?N.lxor_spec, ?N.lor_spec, ?N.land_spec, ?N.lxor_spec.
  assert (N.testbit 0x80000000 n && N.testbit 0x7FFFFFFF n = false) as E.
  { rewrite <- N.land_spec. change (N.land _ _) with 0. apply N.bits_0. }
  destruct (N.testbit 0x80000000 n), (N.testbit 0x7FFFFFFF n); try discriminate; btauto.
Qed.

Lemma twist_fixed_0 c : c < M32 -> mt19937_twist c c = 0 -> c = 0.
Proof.
  intros Hc. unfold mt19937_twist. change (2^31) with 2147483648.
  replace ((c / 2147483648) mod 2 * 2147483648 + c mod 2147483648) with c by lia.
  destruct (N.odd c) eqn:E; intros H.
  - apply N.lxor_eq in H. lia.
  - assert (N.even c = true) as Ev by (rewrite <- N.negb_odd, E; reflexivity).
    apply N.even_spec in Ev. destruct Ev as [d ->].
    rewrite N.mul_comm, N.div_mul in H by lia. lia.
Qed.

Lemma no_pow2_period k : forall z, linear_rec z -> (forall i, z i < M32) ->
  (forall i, z (i + 2 ^ k)%nat = z i) -> forall i, z i = 0.
Proof.
  induction k as [|k IH]; intros z Hr Hb Hp.
  - assert (C : forall i, z i = z 0%nat).
    { induction i; [reflexivity|]. rewrite <- IHi, <- (Hp i). f_equal. simpl. lia. }
    intros i. rewrite C. apply twist_fixed_0; [apply Hb|].
    specialize (Hr 0%nat). rewrite (C (0 + 624)%nat), (C (0 + 397)%nat), (C (0 + 1)%nat) in Hr.
    rewrite <- (N.lxor_0_r (z 0%nat)) in Hr at 1.
    assert (E : N.lxor (z 0%nat) (N.lxor (z 0%nat) 0) =
                N.lxor (z 0%nat) (N.lxor (z 0%nat) (mt19937_twist (z 0%nat) (z 0%nat)))) by now f_equal.
    rewrite <- !N.lxor_assoc, N.lxor_nilpotent, !N.lxor_0_l in E. now symmetry.
  - apply IH; auto.
    intros i. apply N.lxor_eq.
    apply (IH (fun i => N.lxor (z (i + 2 ^ k)%nat) (z i))).
    + intros j. cbn beta.
      replace (j + 624 + 2 ^ k)%nat with (j + 2^k + 624)%nat by lia.
      replace (j + 397 + 2 ^ k)%nat with (j + 2^k + 397)%nat by lia.
      replace (j + 1 + 2 ^ k)%nat with (j + 2^k + 1)%nat by lia.
      rewrite (Hr j), (Hr (j + 2^k)%nat), twist_lxor.
      apply N.bits_inj; intro n; rewrite ?N.lxor_spec; btauto.
    + intros j. apply lxor_lt32; apply Hb.
    + intros j. cbn beta. replace (j + 2^k + 2^k)%nat with (j + 2 ^ S k)%nat by (simpl; lia).
      rewrite Hp. apply N.lxor_comm.
Qed.

(** Going back from a zero tail. *)
Lemma twist_0 u v : mt19937_twist u v = 0 -> (u / 2^31) mod 2 = 0 /\ v mod 2^31 = 0.
Proof.
  unfold mt19937_twist. change (2^31) with 2147483648.
  set (y := (u / 2147483648) mod 2 * 2147483648 + v mod 2147483648).
  destruct (N.odd y) eqn:E; intros H.
  - apply N.lxor_eq in H. unfold y in *. lia.
  - assert (N.even y = true) as Ev by (rewrite <- N.negb_odd, E; reflexivity).
    apply N.even_spec in Ev. destruct Ev as [d Ed].
    rewrite Ed, N.mul_comm, N.div_mul in H by lia. unfold y in *. lia.
Qed.

Lemma zero_back seed x p : MT19937 seed x -> (forall i, x (S p + i)%nat = 0) ->
  forall i, x (S i) = 0.
Proof.
  intros Hx. pose proof (mt19937_rec _ _ Hx) as Hr. pose proof (mt19937_lt _ _ Hx) as Hb.
  induction p as [|p IH]; intros Hz; [exact Hz|].
  apply IH. intros i.
  destruct i as [|i]; [|rewrite <- (Hz i); f_equal; lia].
  rewrite Nat.add_0_r.
  assert (E1 : mt19937_twist (x (S p)) (x (S p + 1)%nat) = 0).
  { pose proof (Hr (S p)) as H.
    assert (x (S p + 624)%nat = 0) as E by (rewrite <- (Hz 623%nat); f_equal; lia).
    assert (x (S p + 397)%nat = 0) as E' by (rewrite <- (Hz 396%nat); f_equal; lia).
    rewrite E, E', N.lxor_0_l in H. now symmetry. }
  assert (E2 : mt19937_twist (x p) (x (S p)) = 0).
  { pose proof (Hr p) as H.
    assert (x (p + 624)%nat = 0) as E by (rewrite <- (Hz 622%nat); f_equal; lia).
    assert (x (p + 397)%nat = 0) as E' by (rewrite <- (Hz 395%nat); f_equal; lia).
    rewrite E, E', N.lxor_0_l, Nat.add_1_r in H. now symmetry. }
  apply twist_0 in E1, E2. pose proof (Hb (S p)). change (2^31) with 2147483648 in *. lia.
Qed.

Lemma mt_no_pow2_period seed x k p : MT19937 seed x ->
  ~ (forall i, x (p + i + 2^k)%nat = x (p + i)%nat).
Proof.
  intros Hx Hp.
  assert (Z : forall i, x (p + i)%nat = 0).
  { apply (no_pow2_period k (fun i => x (p + i)%nat)).
    - intros i. replace (p + (i + 624))%nat with (p + i + 624)%nat by lia.
      rewrite (mt19937_rec _ _ Hx). f_equal; [f_equal; lia|]. do 2 f_equal; lia.
    - intros i. apply (mt19937_lt _ _ Hx).
    - intros i. rewrite <- (Hp i). f_equal. lia. }
  assert (Z' : forall i, x (S i) = 0).
  { apply (zero_back seed x p Hx). intros i. rewrite <- (Z (S i)). f_equal. lia. }
  pose proof (mt19937_init _ _ Hx 1 ltac:(lia)) as H. rewrite !Z' in H. discriminate H.
Qed.

(** ** tempering is injective *)
Lemma untemper_r k y y' : 1 <= k -> N.lxor y (y / 2^k) = N.lxor y' (y' / 2^k) -> y = y'.
Proof.
  intros Hk H. rewrite <- !N.shiftr_div_pow2 in H.
  apply N.bits_inj; intro n.
  remember (N.to_nat (N.max (N.size y) (N.size y') - n)) as d eqn:Ed. revert n Ed.
  induction d as [d IH] using (well_founded_induction lt_wf). intros n Ed.
  destruct (N.le_gt_cases (N.max (N.size y) (N.size y')) n) as [Hn|Hn].
  - rewrite !(bits_above_lt _ n); auto; try lia.
    + eapply N.lt_le_trans; [apply N.size_gt|]. apply N.pow_le_mono_r; lia.
    + eapply N.lt_le_trans; [apply N.size_gt|]. apply N.pow_le_mono_r; lia.
  - assert (E : N.testbit y (n + k) = N.testbit y' (n + k)) by (eapply IH; [|reflexivity]; lia).
    apply (f_equal (fun z => N.testbit z n)) in H.
    rewrite !N.lxor_spec, !shiftr_bits in H. rewrite E in H.
    destruct (N.testbit y n), (N.testbit y' n), (N.testbit y' (n + k)); simpl in H; congruence.
Qed.

Lemma untemper_l k c y y' : 1 <= k ->
  N.lxor y (N.land ((y * 2^k) mod 2^32) c) = N.lxor y' (N.land ((y' * 2^k) mod 2^32) c) -> y = y'.
Proof.
  intros Hk H. rewrite <- !N.shiftl_mul_pow2 in H.
  change ((N.shiftl y k) mod 2^32) with (w32 (N.shiftl y k)) in H.
  change ((N.shiftl y' k) mod 2^32) with (w32 (N.shiftl y' k)) in H.
  apply N.bits_inj; intro n.
  remember (N.to_nat n) as d eqn:Ed. revert n Ed.
  induction d as [d IH] using (well_founded_induction lt_wf). intros n Ed.
  apply (f_equal (fun z => N.testbit z n)) in H.
  rewrite !N.lxor_spec, !N.land_spec, !w32_bits, !shiftl_bits in H.
  destruct (N.leb_spec k n) as [Hn|Hn].
  - assert (E : N.testbit y (n - k) = N.testbit y' (n - k)) by (eapply IH; [|reflexivity]; lia).
    rewrite E in H.
    destruct (N.testbit y n), (N.testbit y' n), (N.testbit y' (n - k)), (n <? 32), (N.testbit c n);
      simpl in H; congruence.
  - destruct (N.testbit y n), (N.testbit y' n), (n <? 32), (N.testbit c n); simpl in H; congruence.
Qed.

Lemma temper_inj y y' : mt19937_temper y = mt19937_temper y' -> y = y'.
Proof.
  unfold mt19937_temper. intros H.
  apply untemper_r in H; [|lia]. apply untemper_l in H; [|lia].
  apply untemper_l in H; [|lia]. now apply untemper_r in H; [|lia].
Qed.
