From Coq Require Import NArith ZArith List Bool Lia.
From Coq Require Import ZifyBool ZifyNat ZifyN.
From Verif Require Import Base.Word Base.WordLemmas Model.Xorshift Model.Xoroshiro Spec.XorshiftSpec.
From Verif Require Import Proofs.XorshiftProofs Proofs.XorshiftRange Proofs.XoroshiroProofs.
Import ListNotations.
Open Scope N_scope.
Ltac Zify.zify_post_hook ::= idtac.

Lemma words4 a b c d : xs_words [w32 a; w32 b; w32 c; w32 d].
Proof.
  exists (w32 a), (w32 b), (w32 c), (w32 d). split; [reflexivity|].
  split; [apply w32_lt|]. split; [apply w32_lt|]. split; apply w32_lt.
Qed.
Lemma xs_new_words junk a b c d : length junk = 4%nat -> xs_words (xs_new junk a b c d).
Proof. intros H. unfold xs_new. rewrite xs_re_init_words by exact H. apply words4. Qed.
Lemma xs_calls_words m ops : forall st, xs_words st -> xs_words (fst (xs_calls m st ops)).
Proof.
  induction ops as [|op ops IH]; intros st H; cbn [xs_calls]; [exact H|].
  pose proof (xs_call_words m st op H) as K. destruct (xs_call m st op) as [st1 o]. cbn [fst] in K.
  specialize (IH st1 K). destruct (xs_calls m st1 ops). exact IH.
Qed.
Lemma xs_reached_words m st : xs_reached m st -> xs_words st.
Proof. intros (j & a & b & c & d & ops & Hl & ->). apply xs_calls_words. now apply xs_new_words. Qed.
Lemma xs_words_length st : xs_words st -> length st = 4%nat.
Proof. now intros (x & y & z & w & -> & _). Qed.

Lemma xs_calls_next m n st : fst (xs_calls m st (repeat XNext n)) = xs_advance m st (N.of_nat n).
Proof.
  revert st. induction n as [|n IH]; intros st; [reflexivity|].
  cbn [repeat xs_calls xs_call]. replace (N.of_nat (S n)) with (N.of_nat n + 1) by lia.
  destruct (xs_next m st) as [st1 r] eqn:E. specialize (IH st1).
  destruct (xs_calls m st1 (repeat XNext n)) as [st2 os]. cbn [fst] in *. rewrite IH.
  unfold xs_advance. rewrite N.iter_add. cbn [N.iter Pos.iter]. now rewrite E.
Qed.
Lemma xs_re_init_fresh m m' st junk a b c d : xs_reached m st -> length junk = 4%nat ->
  xs_re_init st a b c d = xs_new junk a b c d /\
  forall ops, snd (xs_calls m' (xs_re_init st a b c d) ops) = snd (xs_calls m' (xs_new junk a b c d) ops).
Proof.
  intros H Hl. assert (E : xs_re_init st a b c d = xs_new junk a b c d).
  { unfold xs_new. rewrite !xs_re_init_words; [reflexivity|exact Hl|].
    apply xs_words_length. now apply (xs_reached_words m). }
  split; [exact E|]. intros ops. now rewrite E.
Qed.

(** ** xoroshiro *)
Lemma xo_iter_ref n st : xo_words st -> N.iter n xo_step st = N.iter n xoroshiro_next st.
Proof.
  intros H. induction n as [|n IH] using N.peano_ind; [reflexivity|].
  rewrite !Niter_succ, <- IH. apply xo_step_ref. now apply xo_words_iter.
Qed.
Lemma xo_draw_ref m mx st i : xo_words st -> 1 <= mx < 2^32 -> xo_draw m mx st i = xoroshiro_draw mx st i.
Proof.
  intros H Hm. unfold xo_draw, xoroshiro_draw. rewrite xo_iter_ref by exact H.
  rewrite xo_bit_mask_eq by exact Hm. rewrite N.land_ones. f_equal. f_equal.
  destruct (N.eq_dec mx 1) as [->|]; [reflexivity|].
  rewrite N.log2_up_eqn by lia. rewrite N.size_log2 by lia. now rewrite N.sub_1_r.
Qed.
Lemma xo_rand_spec m st mx : xo_words st -> 1 <= mx < 2^32 ->
  exists i : nat,
    (forall j : nat, (j < i)%nat -> mx <= xoroshiro_draw mx st (N.of_nat j)) /\
    xoroshiro_draw mx st (N.of_nat i) < mx /\
    forall fuel, (i <= fuel)%nat ->
      xo_next_rand fuel m st mx =
        Ok (N.iter (N.of_nat (S i)) xoroshiro_next st, xoroshiro_draw mx st (N.of_nat i)).
Proof.
  intros H Hm. destruct (xo_next_rand_ok m st mx H Hm) as (i & A & B & C). exists i. split; [|split].
  - intros j L. rewrite <- (xo_draw_ref m) by assumption. now apply A.
  - now rewrite <- (xo_draw_ref m).
  - intros fuel L. rewrite (C fuel L). rewrite (xo_draw_ref m) by assumption. now rewrite xo_iter_ref.
Qed.
Lemma xo_rand_pow2 m st k fuel : xo_words st -> k < 32 ->
  xo_next_rand fuel m st (2^k) = Ok (xoroshiro_next st, xoroshiro_output st mod 2^k).
Proof.
  intros H Hk.
  assert (Hm : 1 <= 2^k < 2^32).
  { pose proof (N.pow_nonzero 2 k ltac:(discriminate)). split; [lia|]. apply N.pow_lt_mono_r; [reflexivity|exact Hk]. }
  destruct (xo_rand_spec m st (2^k) H Hm) as (i & A & _ & C).
  assert (i = 0%nat) as ->.
  { destruct i as [|i]; [reflexivity|]. specialize (A 0%nat ltac:(lia)).
    pose proof (xo_draw_pow2 m st k 0 Hk) as B. rewrite xo_draw_ref in B by assumption. cbn [N.of_nat] in A. lia. }
  rewrite (C fuel ltac:(lia)). cbn [N.of_nat]. unfold xoroshiro_draw. cbn [N.iter Pos.of_succ_nat Pos.iter].
  now rewrite N.log2_up_pow2 by lia.
Qed.

Lemma xo_undo st : xo_words st ->
  xo_previous (fst (xo_next st)) = (st, snd (xo_next st)) /\
  sm_previous (fst (sm_next st)) = (st, snd (sm_next st)) /\
  xo_words (fst (xo_previous st)) /\
  xo_next (fst (xo_previous st)) = (st, snd (xo_previous st)) /\
  xo_words (fst (sm_previous st)) /\
  sm_next (fst (sm_previous st)) = (st, snd (sm_previous st)).
Proof.
  intros H. destruct (xo_step_back st H) as [W B].
  unfold xo_previous, sm_previous, xo_next, sm_next. cbn [fst snd].
  rewrite (xo_back_step st H), B. split; [reflexivity|]. split; [reflexivity|].
  split; [exact W|]. split; [reflexivity|]. split; [exact W|reflexivity].
Qed.

Lemma xo_re_init_eq st a b : length st = 2%nat -> xo_re_init st a b = [w64 a; w64 b].
Proof. destruct st as [|x [|y [|]]]; try discriminate. reflexivity. Qed.
Lemma sm_re_init_eq st a : length st = 2%nat ->
  sm_re_init st a = [splitmix (w64 a) 0x9E3779B97F4A7C15; splitmix (w64 a) 0x3C6EF372FE94F82A].
Proof. destruct st as [|x [|y [|]]]; try discriminate. reflexivity. Qed.
Lemma words2 a b : a < 2^64 -> b < 2^64 -> xo_words [a; b].
Proof. intros. exists a, b. auto. Qed.
Lemma xo_words_length st : xo_words st -> length st = 2%nat.
Proof. now intros (a & b & -> & _). Qed.

Lemma xo_reject_words f mask mx : forall st r v, xo_words st -> xo_reject f mask mx st r = Ok v -> xo_words (fst v).
Proof.
  induction f as [|f IH]; intros st r v H E; cbn [xo_reject] in E; destruct (mx <=? r); try discriminate.
  - now injection E as <-.
  - unfold xo_next in E. apply IH in E; [exact E|]. now apply xo_words_step.
  - now injection E as <-.
Qed.
Lemma xo_call_words m st op : xo_words st -> xo_words (fst (xo_call m st op)).
Proof.
  intros H. destruct op as [| |n|f mx|a b]; cbn [xo_call].
  - now apply xo_words_step.
  - unfold xo_previous. cbn [fst]. now apply xo_step_back.
  - cbn [fst]. rewrite xo_advance_step. now apply xo_words_iter.
  - unfold xo_next_rand. cbv zeta. unfold xo_next at 1.
    destruct (xo_reject _ _ _ _ _) as [[st' r]|e] eqn:E; [|exact H].
    apply xo_reject_words in E; [exact E|now apply xo_words_step].
  - cbn [fst]. rewrite xo_re_init_eq by now apply xo_words_length. apply words2; apply w64_lt.
Qed.
Lemma sm_call_words m st op : xo_words st -> xo_words (fst (sm_call m st op)).
Proof.
  intros H. destruct op as [| |n|mx|a]; cbn [sm_call].
  - now apply xo_words_step.
  - unfold sm_previous. cbn [fst]. now apply xo_step_back.
  - cbn [fst]. rewrite sm_advance_step. now apply xo_words_iter.
  - unfold sm_next_rand, sm_next. cbn [fst]. now apply xo_words_step.
  - cbn [fst]. rewrite sm_re_init_eq by now apply xo_words_length. apply words2; apply w64_lt.
Qed.
Definition xo_reached (m : mode) (st : list N) : Prop :=
  exists junk a b ops, length junk = 2%nat /\ st = fst (xo_calls m (xo_new junk a b) ops).
Definition sm_reached (m : mode) (st : list N) : Prop :=
  exists junk a ops, length junk = 2%nat /\ st = fst (sm_calls m (sm_new junk a) ops).
Lemma xo_reached_words m st : xo_reached m st -> xo_words st.
Proof.
  intros (j & a & b & ops & Hl & ->).
  assert (H : xo_words (xo_new j a b)).
  { unfold xo_new. rewrite xo_re_init_eq by exact Hl. apply words2; apply w64_lt. }
  revert H. generalize (xo_new j a b). induction ops as [|op ops IH]; intros st H; cbn [xo_calls]; [exact H|].
  pose proof (xo_call_words m st op H) as K. destruct (xo_call m st op) as [st1 o]. cbn [fst] in K.
  specialize (IH st1 K). destruct (xo_calls m st1 ops). exact IH.
Qed.
Lemma sm_reached_words m st : sm_reached m st -> xo_words st.
Proof.
  intros (j & a & ops & Hl & ->).
  assert (H : xo_words (sm_new j a)).
  { unfold sm_new. rewrite sm_re_init_eq by exact Hl. apply words2; apply w64_lt. }
  revert H. generalize (sm_new j a). induction ops as [|op ops IH]; intros st H; cbn [sm_calls]; [exact H|].
  pose proof (sm_call_words m st op H) as K. destruct (sm_call m st op) as [st1 o]. cbn [fst] in K.
  specialize (IH st1 K). destruct (sm_calls m st1 ops). exact IH.
Qed.
Lemma xo_re_init_fresh m m' st junk a b : xo_reached m st -> length junk = 2%nat ->
  xo_re_init st a b = xo_new junk a b /\
  forall ops, snd (xo_calls m' (xo_re_init st a b) ops) = snd (xo_calls m' (xo_new junk a b) ops).
Proof.
  intros H Hl. assert (E : xo_re_init st a b = xo_new junk a b).
  { unfold xo_new. rewrite !xo_re_init_eq; [reflexivity|exact Hl|]. eapply xo_words_length, xo_reached_words, H. }
  split; [exact E|]. intros ops. now rewrite E.
Qed.
Lemma sm_re_init_fresh m m' st junk a : sm_reached m st -> length junk = 2%nat ->
  sm_re_init st a = sm_new junk a /\
  forall ops, snd (sm_calls m' (sm_re_init st a) ops) = snd (sm_calls m' (sm_new junk a) ops).
Proof.
  intros H Hl. assert (E : sm_re_init st a = sm_new junk a).
  { unfold sm_new. rewrite !sm_re_init_eq; [reflexivity|exact Hl|]. eapply xo_words_length, sm_reached_words, H. }
  split; [exact E|]. intros ops. now rewrite E.
Qed.
Lemma xo_calls_next m n st : fst (xo_calls m st (repeat ONext n)) = xo_advance st (N.of_nat n).
Proof.
  revert st. induction n as [|n IH]; intros st; [reflexivity|].
  cbn [repeat xo_calls xo_call]. replace (N.of_nat (S n)) with (N.of_nat n + 1) by lia.
  unfold xo_next at 1. specialize (IH (xo_step st)).
  destruct (xo_calls m (xo_step st) (repeat ONext n)) as [st2 os]. cbn [fst] in *. rewrite IH.
  rewrite !xo_advance_step, N.iter_add. reflexivity.
Qed.
Lemma sm_calls_next m n st : fst (sm_calls m st (repeat SmNext n)) = sm_advance st (N.of_nat n).
Proof.
  revert st. induction n as [|n IH]; intros st; [reflexivity|].
  cbn [repeat sm_calls sm_call]. replace (N.of_nat (S n)) with (N.of_nat n + 1) by lia.
  unfold sm_next at 1. specialize (IH (xo_step st)).
  destruct (sm_calls m (xo_step st) (repeat SmNext n)) as [st2 os]. cbn [fst] in *. rewrite IH.
  rewrite !sm_advance_step, N.iter_add. reflexivity.
Qed.
Lemma xo_bijective a b : xo_words a -> xo_words b -> fst (xo_next a) = fst (xo_next b) -> a = b.
Proof.
  intros Ha Hb E. unfold xo_next in E. cbn [fst] in E.
  rewrite <- (xo_back_step a Ha), <- (xo_back_step b Hb). now f_equal.
Qed.
Lemma xs_injective m a b : xs_words a -> xs_words b -> fst (xs_next m a) = fst (xs_next m b) -> a = b.
Proof.
  intros Ha Hb E. pose proof (xs_previous_next m a Ha) as A. pose proof (xs_previous_next m b Hb) as B.
  rewrite E in A. rewrite A in B. exact (f_equal fst B).
Qed.

(** Outputs of the xoroshiro classes. *)
Lemma xo_outputs st n : xo_words st ->
  xo_advance st n = N.iter n xoroshiro_next st /\
  snd (xo_next (xo_advance st n)) = xoroshiro_output (N.iter n xoroshiro_next st) /\
  sm_advance st n = N.iter n xoroshiro_next st /\
  snd (sm_next (sm_advance st n)) = xoroshiro_output (N.iter n xoroshiro_next st) / 2^32.
Proof.
  intros H. rewrite xo_advance_step, sm_advance_step, !xo_iter_ref by exact H.
  pose proof (xo_words_iter st n H) as W. rewrite xo_iter_ref in W by exact H.
  split; [reflexivity|]. split; [now apply xo_next_out|]. split; [reflexivity|].
  destruct W as (a & b & -> & Ha & Hb). unfold sm_next, xoroshiro_output. cbn [snd aget nth].
  unfold w64. change 18446744073709551616 with (2^64). rewrite N.shiftr_div_pow2. apply w32_small.
  apply N.div_lt_upper_bound; [discriminate|]. change (2^32 * 4294967296) with (2^64). apply N.mod_lt. discriminate.
Qed.
Lemma xo_advance_period st : xo_words st -> st <> xo_zero ->
  xo_advance st (2^128 - 1) = st /\
  (forall d, xo_advance st d = st -> N.divide (2^128 - 1) d) /\
  (forall st', xo_words st' -> st' <> xo_zero -> exists i, i < 2^128 - 1 /\ xo_advance st i = st') /\
  (forall n, sm_advance st n = xo_advance st n).
Proof.
  intros H H0. destruct (xo_full_period st H H0) as (A & B & C).
  split; [rewrite xo_advance_step; exact A|]. split; [intros d; rewrite xo_advance_step; exact (B d)|].
  split; [|intros n; now rewrite xo_advance_step, sm_advance_step].
  intros st' H' H0'. destruct (C st' H' H0') as (i & Hi & E). exists i. split; [exact Hi|].
  rewrite xo_advance_step. exact E.
Qed.

Lemma xo_reject_zero mask fuel : forall st r, xo_reject fuel mask 0 st r = Raise OutOfFuel.
Proof.
  induction fuel as [|f IH]; intros st r; cbn [xo_reject]; (destruct (N.leb_spec 0 r) as [_|L]; [|lia]).
  - reflexivity.
  - unfold xo_next. apply IH.
Qed.
Lemma xo_rand_zero m st fuel : xo_next_rand fuel m st 0 = Raise OutOfFuel.
Proof. unfold xo_next_rand. cbv zeta. unfold xo_next at 1. apply xo_reject_zero. Qed.
