(** Single bits of consecutive outputs. *)
From Coq Require Import NArith List Bool Lia.
From Verif Require Import Base.Word Base.WordLemmas Model.Xorshift Model.Xoroshiro Model.TinyMT
  Spec.XorshiftSpec Spec.TinySpec Spec.RecoverSpec Spec.FlipSpec
  Proofs.GF2 Proofs.GF2Period Proofs.Observe Proofs.XorshiftProofs Proofs.XorshiftFinal Proofs.XoroshiroProofs
  Proofs.TinyProofs Proofs.TinyPeriod.
Import ListNotations.
Ltac Zify.zify_post_hook ::= idtac.
Open Scope N_scope.

(** ** Lists of results *)
Lemma results_step {S A} (step : S -> S * A) n s :
  results step (Datatypes.S n) s = snd (step s) :: results step n (fst (step s)).
Proof. cbn [results]. now destruct (step s). Qed.
Lemma results_nth {S A B} (step step' : S -> S * A) (g : A -> B) n : forall s s',
  map g (results step n s) = map g (results step' n s') ->
  forall i, i < N.of_nat n ->
  g (snd (step (N.iter i (fun s => fst (step s)) s))) = g (snd (step' (N.iter i (fun s => fst (step' s)) s'))).
Proof.
  induction n as [|n IH]; intros s s' H i Hi; [lia|].
  rewrite !results_step in H. cbn [map] in H.
  pose proof (f_equal (fun l => hd (g (snd (step s))) l) H) as H1. cbn [hd] in H1.
  pose proof (f_equal (fun l => tl l) H) as H2. cbn [tl] in H2.
  destruct i as [|i] using N.peano_ind; [exact H1|].
  rewrite !Niter_succ_r. apply IH; [exact H2|lia].
Qed.
Lemma results_map {S A B} (step : S -> S * A) (step' : S -> S * B) (g : A -> B) :
  (forall s, step' s = (fst (step s), g (snd (step s)))) ->
  forall n s, results step' n s = map g (results step n s).
Proof.
  intros H n. induction n as [|n IH]; intros s; [reflexivity|].
  rewrite !results_step, H. cbn [fst snd map]. now rewrite IH.
Qed.

(** ** Xorshift128: any bit *)
Lemma testbit_additive k x y : N.testbit (N.lxor x y) k = xorb (N.testbit x k) (N.testbit y k).
Proof. apply N.lxor_spec. Qed.

Lemma xT_observe b x y : b < 128 -> x < 2 ^ 128 -> y < 2 ^ 128 ->
  (forall i, i < 128 -> N.testbit (N.iter i xT x) b = N.testbit (N.iter i xT y) b) -> x = y.
Proof.
  intros Hb. apply (seen_gives_state xT xP 128 xT_linear xT_bound) with (lam := fun v => N.testbit v b) (e := 2 ^ b).
  - exact (annihilates xT xP 128 xT_linear 128 eq_refl xT_annih).
  - now vm_compute.
  - intros u v Hu U0 Hv V0. destruct (xT_period u Hu U0) as (_ & _ & C). destruct (C v Hv V0) as (i & _ & E). eauto.
  - apply testbit_additive.
  - apply N.pow_lt_mono_r; [reflexivity|exact Hb].
  - apply N.pow2_bits_true.
Qed.

Lemma xs_out_bit m st b : xs_words st -> b < 32 ->
  N.testbit (snd (xs_next m st)) b = N.testbit (xT (lpack st)) (96 + b).
Proof.
  intros H Hb. rewrite (xs_next_out m st H), <- (lpack_next m st H).
  pose proof (xs_words_next m st H) as W. destruct W as (x & y & z & w & -> & Hx & Hy & Hz & Hw).
  unfold lpack, xpack. cbn [aget nth].
  replace (x + 2 ^ 32 * (y + 2 ^ 32 * (z + 2 ^ 32 * w))) with (x + 2 ^ 32 * (y + 2 ^ 32 * z) + 2 ^ 96 * w)
    by (change (2 ^ 96) with (2 ^ 32 * (2 ^ 32 * 2 ^ 32)); ring).
  set (l := x + 2 ^ 32 * (y + 2 ^ 32 * z)).
  assert (L : l < 2 ^ 96).
  { unfold l. change 96 with (32 + 64). apply lo_hi_lt; [exact Hx|].
    change 64 with (32 + 32). now apply lo_hi_lt. }
  rewrite N.add_comm with (n := 96). rewrite <- N.shiftr_spec by lia. now rewrite shr_hi.
Qed.

Lemma xs_bit_gives_state m m' b st st' : b < 32 -> xs_words st -> xs_words st' ->
  map (fun r => N.testbit r b) (results (xs_next m) 128 st) =
  map (fun r => N.testbit r b) (results (xs_next m') 128 st') -> st = st'.
Proof.
  intros Hb H H' E.
  assert (G : forall k s, (fun s => fst (xs_next k s)) s = fst (xs_next k s)) by reflexivity.
  assert (A : forall k s i, xs_words s -> N.testbit (snd (xs_next k (N.iter i (fun s => fst (xs_next k s)) s))) b
                = N.testbit (N.iter i xT (xT (lpack s))) (96 + b)).
  { intros k s i W. fold (xs_advance k s i). rewrite xs_out_bit by (assumption || now apply xs_words_advance).
    rewrite lpack_advance by exact W. now rewrite <- Niter_succ, Niter_succ_r. }
  assert (F : xT (lpack st) = xT (lpack st')).
  { apply (xT_observe (96 + b)); [lia|now apply xT_bound, lpack_lt|now apply xT_bound, lpack_lt|].
    intros i Hi. rewrite <- (A m), <- (A m') by assumption.
    exact (results_nth _ _ _ 128 st st' E i Hi). }
  apply (xs_injective NumPy); try assumption.
  apply lpack_inj; try now apply xs_words_next. now rewrite !lpack_next.
Qed.

Lemma xs_flips_give_state m m' st st' : xs_words st -> xs_words st' ->
  results (fun s => xs_next_rand m s 2) 128 st = results (fun s => xs_next_rand m' s 2) 128 st' -> st = st'.
Proof.
  intros H H' E.
  assert (R : forall k s, results (fun s => xs_next_rand k s 2) 128 s = map (fun r => Ok (r mod 2)) (results (xs_next k) 128 s)).
  { intros k s. apply (results_map (xs_next k) (fun s => xs_next_rand k s 2)). intros s0.
    unfold xs_next_rand. destruct (xs_next k s0). reflexivity. }
  rewrite !R in E. apply (xs_bit_gives_state m m' 0); try assumption; [reflexivity|].
  apply (f_equal (map (fun r => match r with Ok v => v =? 1 | Raise _ => false end))) in E.
  rewrite !map_map in E. erewrite map_ext; [rewrite E; symmetry; apply map_ext|];
    intros r; cbn beta; rewrite N.bit0_odd, <- N.bit0_mod, N.bit0_odd; now destruct (N.odd r).
Qed.

(** ** Xoroshiro128+: the lowest bit *)
Definition oLam (v : N) : bool := xorb (N.testbit v 0) (N.testbit v 64).
Lemma oT_observe x y : x < 2 ^ 128 -> y < 2 ^ 128 ->
  (forall i, i < 128 -> oLam (N.iter i oT x) = oLam (N.iter i oT y)) -> x = y.
Proof.
  apply (seen_gives_state oT oP 128 oT_linear oT_bound) with (lam := oLam) (e := 1).
  - exact (annihilates oT oP 128 oT_linear 128 eq_refl oT_annih).
  - now vm_compute.
  - intros u v Hu U0 Hv V0. destruct (oT_period u Hu U0) as (_ & _ & C). destruct (C v Hv V0) as (i & _ & E). eauto.
  - intros u v. unfold oLam. rewrite !N.lxor_spec.
    now destruct (N.testbit u 0), (N.testbit u 64), (N.testbit v 0), (N.testbit v 64).
  - now vm_compute.
  - reflexivity.
Qed.
Lemma xo_out_bit st : xo_words st -> N.odd (snd (xo_next st)) = oLam (opack st).
Proof.
  intros (a & b & -> & Ha & Hb). unfold xo_next, oLam, opack. cbn [snd aget nth].
  unfold w64. change 18446744073709551616 with (2 ^ 64). rewrite <- N.bit0_odd, N.mod_pow2_bits_low by reflexivity.
  rewrite !N.bit0_odd, !N.odd_add. f_equal.
  - replace (2 ^ 64 * b) with (2 * (2 ^ 63 * b)) by (change (2 ^ 64) with (2 * 2 ^ 63); ring).
    rewrite N.odd_mul. cbn [N.odd andb]. now rewrite xorb_false_r.
  - replace 64 with (0 + 64) at 2 by reflexivity. rewrite <- N.shiftr_spec by lia.
    rewrite (shr_hi 64) by assumption. apply eq_sym, N.bit0_odd.
Qed.
Lemma xo_bit_gives_state st st' : xo_words st -> xo_words st' ->
  map N.odd (results xo_next 128 st) = map N.odd (results xo_next 128 st') -> st = st'.
Proof.
  intros H H' E. apply opack_inj; try assumption.
  apply oT_observe; [now apply opack_lt|now apply opack_lt|].
  intros i Hi. rewrite <- !opack_iter, <- !xo_out_bit by (try assumption; now apply xo_words_iter).
  exact (results_nth _ _ _ 128 st st' E i Hi).
Qed.

Lemma xo_flip fuel m st : xo_next_rand fuel m st 2 = Ok (fst (xo_next st), snd (xo_next st) mod 2).
Proof.
  unfold xo_next_rand. destruct (xo_next st) as [s r]. cbn [fst snd].
  assert (B : xo_bit_mask m 2 = 1) by (destruct m; reflexivity).
  rewrite B. assert (L : N.land r 1 = r mod 2) by (change 1 with (N.ones 1); apply N.land_ones).
  rewrite L. pose proof (N.mod_lt r 2 ltac:(discriminate)).
  destruct fuel; cbn [xo_reject]; destruct (N.leb_spec 2 (r mod 2)); try lia; reflexivity.
Qed.
Lemma xo_flips fuel m n : forall st,
  results_or_exn (fun s => xo_next_rand fuel m s 2) n st = Ok (map (fun r => r mod 2) (results xo_next n st)).
Proof.
  induction n as [|n IH]; intros st; [reflexivity|].
  rewrite results_step. cbn [results_or_exn map]. rewrite xo_flip, IH. reflexivity.
Qed.
Lemma odd_of_mod r : N.odd r = (r mod 2 =? 1).
Proof. rewrite <- N.bit0_odd, <- N.bit0_mod, N.bit0_odd. now destruct (N.odd r). Qed.
Lemma xo_flips_give_state fuel m st : xo_words st ->
  exists l, results_or_exn (fun s => xo_next_rand fuel m s 2) 128 st = Ok l /\
  forall fuel' m' st', xo_words st' ->
    results_or_exn (fun s => xo_next_rand fuel' m' s 2) 128 st' = Ok l -> st' = st.
Proof.
  intros H. exists (map (fun r => r mod 2) (results xo_next 128 st)). split; [apply xo_flips|].
  intros fuel' m' st' H' E. rewrite xo_flips in E.
  assert (F : map (fun r => r mod 2) (results xo_next 128 st') = map (fun r => r mod 2) (results xo_next 128 st)).
  { revert E. generalize (map (fun r => r mod 2) (results xo_next 128 st')) (map (fun r => r mod 2) (results xo_next 128 st)).
    intros l l' E. now injection E. }
  apply xo_bit_gives_state; try assumption.
  apply (f_equal (map (fun r => r =? 1))) in F. rewrite !map_map in F.
  erewrite map_ext; [rewrite F; symmetry; apply map_ext|]; intros r; cbn beta; apply odd_of_mod.
Qed.

(** ** TinyMT: the lowest bit *)
Lemma tT_observe x y : x < 2 ^ 127 -> y < 2 ^ 127 ->
  (forall i, i < 127 -> N.testbit (N.iter i tT x) 64 = N.testbit (N.iter i tT y) 64) -> x = y.
Proof.
  apply (seen_gives_state tT tP 127 tT_linear tT_bound) with (lam := fun v => N.testbit v 64) (e := 2 ^ 64).
  - exact (annihilates tT tP 127 tT_linear 127 eq_refl tT_annih).
  - now vm_compute.
  - intros u v Hu U0 Hv V0. destruct (tT_period u Hu U0) as (_ & _ & C). destruct (C v Hv V0) as (i & _ & E). eauto.
  - apply testbit_additive.
  - now vm_compute.
  - now vm_compute.
Qed.
Lemma cycle_inj (f : N -> N) M x y : M <> 0 -> N.iter M f x = x -> N.iter M f y = y -> f x = f y -> x = y.
Proof.
  intros HM A B E. rewrite <- A, <- B. rewrite <- (N.succ_pred M HM), !Niter_succ_r. now rewrite E.
Qed.
Lemma iter_zero (f : N -> N) M : f 0 = 0 -> N.iter M f 0 = 0.
Proof. intros H. apply (Niter_inv (fun v => v = 0)); [now intros v ->|reflexivity]. Qed.
Lemma tT_inj x y : x < 2 ^ 127 -> y < 2 ^ 127 -> tT x = tT y -> x = y.
Proof.
  assert (C : forall v, v < 2 ^ 127 -> N.iter (Npos M127) tT v = v).
  { intros v Hv. destruct (N.eq_dec v 0) as [->|V]; [apply iter_zero; reflexivity|].
    exact (proj1 (tT_period v Hv V)). }
  intros Hx Hy. apply (cycle_inj tT (Npos M127)); [discriminate|exact (C x Hx)|exact (C y Hy)].
Qed.
Lemma tiny_out_bit m s : tiny_words s -> N.odd (tiny_temper m (tiny_arr s)) = N.testbit (tpack s) 64.
Proof.
  destruct s as [[[s0 s1] s2] s3]. intros (H0 & H1 & H2 & H3).
  unfold tiny_temper, tiny_arr, tpack. cbn [aget nth]. cbv zeta.
  set (t1 := match m with NumPy => _ | Numba => _ end).
  rewrite !odd_lxor, N.odd_mul.
  assert (L : N.odd (N.land t1 1) = N.odd t1) by (rewrite <- !N.bit0_odd, N.land_spec; cbn [N.testbit]; now rewrite andb_true_r).
  rewrite L. change (N.odd 932445695) with true. rewrite andb_true_r.
  rewrite xorb_assoc, xorb_nilpotent, xorb_false_r.
  replace (s1 + 2 ^ 32 * (s2 + 2 ^ 32 * (s3 + 2 ^ 32 * (s0 mod 2 ^ 31))))
    with (s1 + 2 ^ 32 * s2 + 2 ^ 64 * (s3 + 2 ^ 32 * (s0 mod 2 ^ 31)))
    by (change (2 ^ 64) with (2 ^ 32 * 2 ^ 32); ring).
  replace 64 with (0 + 64) at 2 by reflexivity. rewrite <- N.shiftr_spec by lia.
  rewrite (shr_hi 64) by (change 64 with (32 + 32); now apply lo_hi_lt).
  rewrite N.bit0_odd, N.odd_add, N.odd_mul. cbn [N.odd N.pow Pos.pow Pos.iter Pos.mul andb]. now rewrite xorb_false_r.
Qed.
Lemma tiny_next_arr m s : tiny_words s -> fst (tiny_next m (tiny_arr s)) = tiny_arr (tinymt32_next s).
Proof. intros H. exact (proj1 (iter_ref m s 1 H)). Qed.
Lemma tiny_bit_gives_state m m' s s' : tiny_words s -> tiny_words s' ->
  map N.odd (results (tiny_next m) 127 (tiny_arr s)) = map N.odd (results (tiny_next m') 127 (tiny_arr s')) ->
  tiny127 s = tiny127 s' /\ fst (tiny_next m (tiny_arr s)) = fst (tiny_next m' (tiny_arr s')).
Proof.
  intros H H' E.
  assert (A : forall k t i, tiny_words t ->
    N.odd (snd (tiny_next k (N.iter i (fun x => fst (tiny_next k x)) (tiny_arr t)))) = N.testbit (N.iter i tT (tT (tpack t))) 64).
  { intros k t i W. change (fun x => fst (tiny_next k x)) with (tiny_shuffle k).
    destruct (iter_ref k t i W) as [-> Wi].
    change (snd (tiny_next k (tiny_arr (N.iter i tinymt32_next t)))) with
      (tiny_temper k (fst (tiny_next k (tiny_arr (N.iter i tinymt32_next t))))).
    rewrite tiny_next_arr, tiny_out_bit, tpack_next, tpack_iter by (try assumption; now apply next_words).
    now rewrite <- Niter_succ, Niter_succ_r. }
  assert (P : tpack (tinymt32_next s) = tpack (tinymt32_next s')).
  { rewrite !tpack_next by assumption. apply tT_observe; [now apply tT_bound, tpack_lt|now apply tT_bound, tpack_lt|].
    intros i Hi. rewrite <- (A m), <- (A m') by assumption.
    exact (results_nth _ _ _ 127 (tiny_arr s) (tiny_arr s') E i Hi). }
  assert (Q : tpack s = tpack s').
  { rewrite !tpack_next in P by assumption.
    pose proof (tT_inj (tpack s) (tpack s') (tpack_lt s H) (tpack_lt s' H') P). assumption. }
  pose proof (tpack_inj s s' H H' Q) as R. split; [exact R|].
  rewrite !tiny_next_arr by assumption. f_equal. clear - R.
  destruct s as [[[a b] c] d], s' as [[[a' b'] c'] d']. unfold tiny127 in R. injection R as R0 -> -> ->.
  unfold tinymt32_next. change (N.pos (2 ^ 31)) with (2 ^ 31) in R0. now rewrite R0.
Qed.
Lemma tiny_flips_give_state m m' s s' : tiny_words s -> tiny_words s' ->
  results (fun st => tiny_next_rand_mod m st 2) 127 (tiny_arr s) =
  results (fun st => tiny_next_rand_mod m' st 2) 127 (tiny_arr s') ->
  tiny127 s = tiny127 s' /\ fst (tiny_next m (tiny_arr s)) = fst (tiny_next m' (tiny_arr s')).
Proof.
  intros H H' E.
  assert (R : forall k st, results (fun s => tiny_next_rand_mod k s 2) 127 st = map (fun r => Ok (r mod 2)) (results (tiny_next k) 127 st)).
  { intros k st. apply (results_map (tiny_next k) (fun s => tiny_next_rand_mod k s 2)). intros s0.
    unfold tiny_next_rand_mod. destruct (tiny_next k s0). reflexivity. }
  rewrite !R in E. apply tiny_bit_gives_state; try assumption.
  apply (f_equal (map (fun r => match r with Ok v => v =? 1 | Raise _ => false end))) in E.
  rewrite !map_map in E. erewrite map_ext; [rewrite E; symmetry; apply map_ext|]; intros r; cbn beta; apply odd_of_mod.
Qed.
