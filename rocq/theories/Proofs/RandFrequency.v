(** Bounded rands of the generators that avoid the zero state. *)
From Coq Require Import NArith List Bool Lia.
From Verif Require Import Base.Word Base.WordLemmas Model.Xorshift Model.Xoroshiro
  Spec.XorshiftSpec Spec.CountSpec Proofs.Count Proofs.Frequency Proofs.XorshiftProofs Proofs.XorshiftRange.
Import ListNotations.
Ltac Zify.zify_post_hook ::= idtac.
Open Scope N_scope.

Lemma function_of_value_but_zero (p : N -> bool) (out : N -> N) (n M c : N) : 0 < M -> 0 < c ->
  (forall i, i < n -> out i < M) ->
  (forall v, v < M -> how_many (fun i => out i =? v) n = if v =? 0 then c - 1 else c) ->
  how_many (fun i => p (out i)) n + (if p 0 then 1 else 0) = c * how_many p M.
Proof.
  intros HM Hc A H. rewrite (how_many_by_value p out M n A).
  assert (E : (if p 0 then 1 else 0) = total (fun v => if 0 =? v then if p 0 then 1 else 0 else 0) M).
  { destruct (p 0).
    - symmetry. now apply total_one.
    - symmetry. rewrite (total_ext _ (fun _ => 0)); [apply total_0|]. intros v _. now destruct (0 =? v). }
  rewrite E, <- total_add, <- total_if. apply total_ext.
  intros v Hv. rewrite H by exact Hv. rewrite (N.eqb_sym v 0).
  destruct (N.eqb_spec 0 v) as [<-|F]; destruct (p _); lia.
Qed.
Lemma remainders_but_zero out n c max v : 0 < c -> (forall i, i < n -> out i < 2^32) ->
  (forall v, v < 2^32 -> how_many (fun i => out i =? v) n = if v =? 0 then c - 1 else c) ->
  1 <= max -> v < max ->
  how_many (fun i => out i mod max =? v) n = c * with_remainder (2^32) max v - (if v =? 0 then 1 else 0).
Proof.
  intros Hc A H Hm Hv. rewrite <- remainder_count by lia.
  rewrite <- (function_of_value_but_zero (fun h => h mod max =? v) out n (2^32) c); try assumption; [|reflexivity].
  rewrite N.mod_0_l by lia. rewrite (N.eqb_sym v 0). destruct (0 =? v); lia.
Qed.

(** ** SplitMixXoroshiro128Plus *)
Lemma sm_out_lt st : snd (sm_next st) < 2^32.
Proof. apply w32_lt. Qed.
Lemma sm_next_rand_range m st maximum : 1 <= maximum ->
  sm_next_rand m st maximum = (fst (sm_next st), Ok (snd (sm_next st) mod maximum)) /\
  snd (sm_next st) mod maximum < maximum.
Proof.
  intros H. split; [|apply N.mod_lt; lia]. unfold sm_next_rand. destruct (sm_next st) as [st' r]. cbn [fst snd].
  unfold umod. destruct (N.eqb_spec maximum 0); [lia|reflexivity].
Qed.
Lemma sm_rand_frequency m st max v : xo_words st -> st <> xo_zero -> 1 <= max -> v < max ->
  how_many (fun i => res_eqb (snd (sm_next_rand m (sm_advance st i) max)) v) (2^128 - 1)
  = 2^96 * with_remainder (2^32) max v - (if v =? 0 then 1 else 0).
Proof.
  intros H H0 Hm Hv.
  rewrite <- (remainders_but_zero (fun i => snd (sm_next (sm_advance st i))) (2^128 - 1) (2^96) max v).
  - apply how_many_ext. intros i _. rewrite (proj1 (sm_next_rand_range m (sm_advance st i) max Hm)). reflexivity.
  - reflexivity.
  - intros i _. apply sm_out_lt.
  - intros u Hu. now apply sm_frequency.
  - exact Hm.
  - exact Hv.
Qed.

(** ** Xorshift128 *)
Lemma xs_out_lt m st : xs_words st -> snd (xs_next m st) < 2^32.
Proof.
  intros (x & y & z & w & -> & ? & ? & ? & ?). rewrite xs_next_ref by assumption. cbn [snd]. now apply xs_word_lt.
Qed.
Lemma xs_rand_frequency m st max v : xs_words st -> st <> xs_zero -> 1 <= max < 2^32 -> v < max ->
  how_many (fun i => res_eqb (snd (xs_next_rand m (xs_advance m st i) max)) v) (2^128 - 1)
  = 2^96 * with_remainder (2^32) max v - (if v =? 0 then 1 else 0).
Proof.
  intros H H0 Hm Hv.
  rewrite <- (remainders_but_zero (fun i => snd (xs_next m (xs_advance m st i))) (2^128 - 1) (2^96) max v).
  - apply how_many_ext. intros i _. rewrite (proj1 (xs_rand_range m (xs_advance m st i) max Hm)). reflexivity.
  - reflexivity.
  - intros i _. apply xs_out_lt. now apply xs_words_advance.
  - intros u Hu. now apply xs_frequency.
  - apply Hm.
  - exact Hv.
Qed.
