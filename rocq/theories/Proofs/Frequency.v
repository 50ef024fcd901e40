(** How often a generator returns each value in one period. *)
From Coq Require Import NArith List Bool Lia.
From Verif Require Import Base.Word Base.WordLemmas Model.Lcrng32 Model.Lcrng64 Model.LcrngClasses
  Model.Xorshift Model.Xoroshiro Model.TinyMT Spec.LcrngSpec Spec.XorshiftSpec Spec.TinySpec Spec.CountSpec
  Proofs.Count Proofs.Lcrng32Proofs Proofs.Lcrng64Proofs Proofs.LcrngFinal Proofs.XorshiftProofs
  Proofs.XoroshiroProofs Proofs.XorshiftFinal Proofs.TinyProofs Proofs.TinyPeriod.
Import ListNotations.
Ltac Zify.zify_post_hook ::= idtac.
Open Scope N_scope.

Local Notation M32 := 4294967296.

(** Indices within one period give different states. *)
Lemma orbit_inj {A} (f : A -> A) x P : N.iter P f x = x -> (forall d, N.iter d f x = x -> N.divide P d) ->
  forall i j, i < P -> j < P -> N.iter i f x = N.iter j f x -> i = j.
Proof.
  intros HP HD.
  assert (L : forall i j, i < j -> j < P -> N.iter i f x = N.iter j f x -> False).
  { intros i j Hij Hj E.
    assert (F : N.iter (P - j + i) f x = x).
    { rewrite Niter_add, E, <- Niter_add. replace (P - j + j) with P by lia. exact HP. }
    apply HD in F. apply N.divide_pos_le in F; lia. }
  intros i j Hi Hj E. destruct (N.lt_trichotomy i j) as [H|[H|H]]; [|exact H|].
  - exfalso. exact (L i j H Hj E).
  - exfalso. exact (L j i H Hi (eq_sym E)).
Qed.

(** ** LCRNGs *)
Lemma high_low w h x : x < 2^(h + w) -> x / 2^w < 2^h.
Proof. intros H. apply N.div_lt_upper_bound; [now apply N.pow_nonzero|]. rewrite <- N.pow_add_r, (N.add_comm w h). exact H. Qed.
Lemma full_period_often w h f (Hf : full_period (h + w) f) (Hlt : forall x, f x < 2^(h + w)) seed : seed < 2^(h + w) ->
  forall v, v < 2^h -> how_many (fun i => N.iter (N.succ i) f seed / 2^w =? v) (2^(h + w)) = 2^w.
Proof.
  intros Hs. destruct Hf as [_ Hf].
  assert (Lt : forall i, N.iter i f seed < 2^(h + w)).
  { intros i. destruct i using N.peano_ind; [exact Hs|]. rewrite Niter_succ. apply Hlt. }
  apply (equally_often _ (fun i => N.iter (N.succ i) f seed mod 2^w)).
  - intros i _. apply high_low, Lt.
  - intros i _. apply N.mod_lt. now apply N.pow_nonzero.
  - intros i j Hi Hj E F.
    assert (G : N.iter (N.succ i) f seed = N.iter (N.succ j) f seed).
    { assert (Hn : 2^w <> 0) by now apply N.pow_nonzero.
      rewrite (N.div_mod (N.iter (N.succ i) f seed) (2^w) Hn), E, F. symmetry. apply (N.div_mod _ _ Hn). }
    rewrite !Niter_succ_r in G.
    destruct (Hf (f seed) (N.iter i f (f seed)) (Hlt _)) as (n & _ & _ & U).
    { rewrite <- Niter_succ_r. apply Lt. }
    rewrite (U i Hi eq_refl). symmetry. apply U; [exact Hj|]. now symmetry.
  - apply N.pow_add_r.
Qed.


Lemma u16_often minor p : In p published32 -> exists a m, consts_of32 minor p = Ok (a, m) /\
  forall seed, seed < 2^32 ->
  (forall i, i < 2^32 -> lcrng32_next a m (lcrng32_advance a m seed i) = N.iter (N.succ i) (lcrng32_next a m) seed) /\
  forall v, v < 2^16 ->
  how_many (fun i => N.iter (N.succ i) (lcrng32_next a m) seed / 2^16 =? v) (2^32) = 2^16.
Proof.
  intros Hp. destruct (c05_32 minor p Hp) as (a & m & E & H). exists a, m. split; [exact E|].
  intros seed Hs. split.
  - intros i Hi. unfold lcrng32_advance. rewrite w32_small by exact Hi. now rewrite Niter_succ.
  - apply (full_period_often 16 16); [exact H| |exact Hs]. intros x. apply Lcrng32Proofs.next32_lt.
Qed.
Lemma u32_often minor p : In p published64 -> exists a m, consts_of64 minor p = Ok (a, m) /\
  forall seed, seed < 2^64 ->
  (forall i, i < 2^64 -> lcrng64_next a m (lcrng64_advance a m seed i) = N.iter (N.succ i) (lcrng64_next a m) seed) /\
  forall v, v < 2^32 ->
  how_many (fun i => N.iter (N.succ i) (lcrng64_next a m) seed / 2^32 =? v) (2^64) = 2^32.
Proof.
  intros Hp. destruct (c05_64 minor p Hp) as (a & m & E & H). exists a, m. split; [exact E|].
  intros seed Hs. split.
  - intros i Hi. unfold lcrng64_advance. rewrite w64_small by exact Hi. now rewrite Niter_succ.
  - apply (full_period_often 32 32); [exact H| |exact Hs]. intros x. apply Lcrng64Proofs.next64_lt.
Qed.

Lemma next_u16_high add mult s : snd (lcrng32_next_u16 add mult s) = lcrng32_next add mult s / 2^16.
Proof.
  unfold lcrng32_next_u16. cbn [snd].
  pose proof (Lcrng32Proofs.next32_lt add mult s) as L. rewrite (w32_small _ L), N.shiftr_div_pow2.
  apply w16_small. apply (high_low 16 16). exact L.
Qed.
Lemma next_u32_high add mult s : snd (lcrng64_next_u32 add mult s) = lcrng64_next add mult s / 2^32.
Proof.
  unfold lcrng64_next_u32. cbn [snd].
  pose proof (Lcrng64Proofs.next64_lt add mult s) as L. rewrite (w64_small _ L), N.shiftr_div_pow2.
  apply w32_small. apply (high_low 32 32). exact L.
Qed.

Lemma lcrng32_frequency minor p : In p published32 -> exists a m, consts_of32 minor p = Ok (a, m) /\
  forall seed v, seed < 2^32 -> v < 2^16 ->
  how_many (fun i => snd (lcrng32_next_u16 a m (lcrng32_advance a m seed i)) =? v) (2^32) = 2^16.
Proof.
  intros Hp. destruct (u16_often minor p Hp) as (a & m & E & H). exists a, m. split; [exact E|].
  intros seed v Hs Hv. destruct (H seed Hs) as [A B]. rewrite <- (B v Hv). apply how_many_ext.
  intros i Hi. now rewrite next_u16_high, A.
Qed.
Lemma lcrng64_frequency minor p : In p published64 -> exists a m, consts_of64 minor p = Ok (a, m) /\
  forall seed v, seed < 2^64 -> v < 2^32 ->
  how_many (fun i => snd (lcrng64_next_u32 a m (lcrng64_advance a m seed i)) =? v) (2^64) = 2^32.
Proof.
  intros Hp. destruct (u32_often minor p Hp) as (a & m & E & H). exists a, m. split; [exact E|].
  intros seed v Hs Hv. destruct (H seed Hs) as [A B]. rewrite <- (B v Hv). apply how_many_ext.
  intros i Hi. now rewrite next_u32_high, A.
Qed.

Lemma remainder_count n m v : 0 < m -> v < m -> how_many (fun h => h mod m =? v) n = with_remainder n m v.
Proof.
  intros Hm Hv. rewrite count_mod by assumption. unfold with_remainder.
  assert (D := N.div_mod n m ltac:(lia)). assert (L := N.mod_lt n m ltac:(lia)).
  set (q := n / m) in *. set (r := n mod m) in *. clearbody q r.
  destruct (N.ltb_spec v r); symmetry.
  - apply (N.div_unique _ _ _ (r - 1 - v)); lia.
  - apply (N.div_unique _ _ _ (r + (m - 1 - v))); lia.
Qed.
Lemma ceil_le a b h : 0 < b -> (ceil_div a b <= h <-> a <= h * b).
Proof.
  intros Hb. unfold ceil_div. split; intros H.
  - assert (a + (b - 1) < b * N.succ h); [|lia].
    apply N.nle_gt. intros F. apply N.div_le_lower_bound in F; lia.
  - apply N.lt_succ_r. apply N.div_lt_upper_bound; lia.
Qed.
Lemma interval_count lo hi n : lo <= hi -> hi <= n -> how_many (fun h => (lo <=? h) && (h <? hi)) n = hi - lo.
Proof.
  intros H Hn.
  assert (A := count_below n hi). assert (B := count_below n lo).
  rewrite (how_many_split _ (fun h => h <? lo)) in A.
  rewrite (how_many_ext (fun h => (h <? hi) && (h <? lo)) (fun h => h <? lo)) in A.
  2:{ intros i _. destruct (N.ltb_spec i hi), (N.ltb_spec i lo); try reflexivity; lia. }
  rewrite (how_many_ext _ (fun h => (h <? hi) && negb (h <? lo))); [lia|].
  intros i _. destruct (N.ltb_spec i hi), (N.ltb_spec i lo), (N.leb_spec lo i); try reflexivity; lia.
Qed.
Lemma share_count n m v : 0 < n -> 0 < m -> v < m -> how_many (fun h => h * m / n =? v) n = with_share n m v.
Proof.
  intros Hn Hm Hv. unfold with_share. rewrite <- (interval_count (ceil_div (n * v) m) (ceil_div (n * (v + 1)) m) n).
  - apply how_many_ext. intros h Hh.
    assert (A := ceil_le (n * v) m h Hm). assert (B := ceil_le (n * (v + 1)) m h Hm).
    assert (D := N.div_mod (h * m) n ltac:(lia)). assert (L := N.mod_lt (h * m) n ltac:(lia)).
    set (x := h * m) in *. set (q := x / n) in *. set (r := x mod n) in *. clearbody x q r.
    apply eq_true_iff_eq. rewrite andb_true_iff, N.eqb_eq, N.leb_le, N.ltb_lt. rewrite A.
    rewrite N.lt_nge, B. split.
    + intros ->. nia.
    + intros [F G]. nia.
  - apply ceil_le; [exact Hm|]. set (c := ceil_div (n * (v + 1)) m).
    assert (n * (v + 1) <= c * m) by (apply ceil_le; [exact Hm|reflexivity]). lia.
  - apply ceil_le; [exact Hm|]. nia.
Qed.

Lemma rands_frequency minor p : In p published32 -> exists a m, consts_of32 minor p = Ok (a, m) /\
  forall md seed max v, seed < 2^32 ->
  (1 <= max < 2^16 -> v < max ->
   how_many (fun i => res_eqb (snd (lcrng32_next_rand md D32_MODULO a m (lcrng32_advance a m seed i) max)) v) (2^32)
   = 2^16 * with_remainder (2^16) max v) /\
  (2 <= max < 2^16 -> v < max ->
   how_many (fun i => res_eqb (snd (lcrng32_next_rand md D32_RECIPROCAL_DIVISION a m (lcrng32_advance a m seed i) max)) v) (2^32)
   = 2^16 * with_quotient (2^16) (65535 / max + 1) v).
Proof.
  intros Hp. destruct (u16_often minor p Hp) as (a & m & E & H). exists a, m. split; [exact E|].
  intros md seed max v Hs. destruct (H seed Hs) as [A B].
  assert (Lt : forall i, i < 2^32 -> N.iter (N.succ i) (lcrng32_next a m) seed / 2^16 < 2^16).
  { intros i _. apply (high_low 16 16). rewrite Niter_succ. apply Lcrng32Proofs.next32_lt. }
  split; intros Hm Hv.
  - rewrite <- remainder_count by lia.
    rewrite <- (function_of_value (fun h => h mod max =? v) _ (2^32) (2^16) (2^16) Lt B).
    apply how_many_ext. intros i Hi.
    destruct (c06_modulo md a m (lcrng32_advance a m seed i) max Hm) as (r & -> & -> & _). cbn [snd res_eqb].
    now rewrite <- lcrng32_next_spec, A.
  - unfold with_quotient. rewrite <- count_div by lia.
    rewrite <- (function_of_value (fun h => h / (65535 / max + 1) =? v) _ (2^32) (2^16) (2^16) Lt B).
    apply how_many_ext. intros i Hi.
    destruct (c06_reciprocal md a m (lcrng32_advance a m seed i) max Hm) as (r & -> & -> & _). cbn [snd res_eqb].
    now rewrite <- lcrng32_next_spec, A.
Qed.
Lemma rands64_frequency minor p : In p published64 -> exists a m, consts_of64 minor p = Ok (a, m) /\
  forall seed max v, seed < 2^64 -> 1 <= max <= 2^32 -> v < max ->
   how_many (fun i => res_eqb (snd (lcrng64_next_rand D64_MULTIPLICATION_SHIFT a m (lcrng64_advance a m seed i) max)) v) (2^64)
   = 2^32 * with_share (2^32) max v.
Proof.
  intros Hp. destruct (u32_often minor p Hp) as (a & m & E & H). exists a, m. split; [exact E|].
  intros seed max v Hs Hm Hv. destruct (H seed Hs) as [A B].
  assert (Lt : forall i, i < 2^64 -> N.iter (N.succ i) (lcrng64_next a m) seed / 2^32 < 2^32).
  { intros i _. apply (high_low 32 32). rewrite Niter_succ. apply Lcrng64Proofs.next64_lt. }
  rewrite <- share_count by lia.
  rewrite <- (function_of_value (fun h => h * max / 2^32 =? v) _ (2^64) (2^32) (2^32) Lt B).
  apply how_many_ext. intros i Hi.
  destruct (c06_mulshift a m (lcrng64_advance a m seed i) max Hm) as (r & -> & -> & _). cbn [snd res_eqb].
  now rewrite <- lcrng64_next_spec, A.
Qed.

(** ** Xorshift128 *)
Lemma pair_inj c a b a' b' : b < c -> b' < c -> a * c + b = a' * c + b' -> a = a' /\ b = b'.
Proof.
  intros H H' E. assert (a = a'); [|split; [assumption|subst; lia]].
  rewrite (N.div_unique (a * c + b) c a b), (N.div_unique (a' * c + b') c a' b'); [now rewrite E| |lia| |lia]; assumption.
Qed.
Lemma pair_lt c x a b : b < c -> a < x -> a * c + b < x * c.
Proof.
  intros Hb Ha. apply N.lt_le_trans with (N.succ a * c); [rewrite N.mul_succ_l; lia|].
  apply N.mul_le_mono_r. lia.
Qed.
Lemma pair_0 c a b : c <> 0 -> a * c + b = 0 -> a = 0 /\ b = 0.
Proof. intros Hc E. apply N.eq_add_0 in E as [E F]. apply N.eq_mul_0 in E as [E|E]; [now split|contradiction]. Qed.
Lemma xs_step_zero m st : xs_words st -> fst (xs_next m st) = xs_zero -> st = xs_zero.
Proof.
  intros H E. apply (xs_injective m); [exact H|exact xs_zero_words|]. rewrite E.
  unfold xs_zero. rewrite xs_next_ref by easy. reflexivity.
Qed.
Lemma xs_never_zero m st i : xs_words st -> st <> xs_zero -> xs_advance m st i <> xs_zero.
Proof.
  intros H H0. induction i using N.peano_ind; [exact H0|]. unfold xs_advance. rewrite Niter_succ.
  intros F. apply IHi. apply (xs_step_zero m); [now apply xs_words_advance|exact F].
Qed.
Lemma xs_orbit m st M : xs_advance m st M = st -> (forall d, xs_advance m st d = st -> N.divide M d) ->
  forall i j, i < M -> j < M -> xs_advance m st i = xs_advance m st j -> i = j.
Proof. unfold xs_advance. apply orbit_inj. Qed.
Lemma xs_frequency m st v : xs_words st -> st <> xs_zero -> v < 2^32 ->
  how_many (fun i => snd (xs_next m (xs_advance m st i)) =? v) (2^128 - 1) = if v =? 0 then 2^96 - 1 else 2^96.
Proof.
  intros H H0. destruct (xs_full_period m st H H0) as (P & D & _).
  set (key := fun i => match fst (xs_next m (xs_advance m st i)) with
                       | [a; b; c; _] => a * 2^64 + (b * 2^32 + c) | _ => 0 end).
  assert (I : forall i j, i < 2^128 - 1 -> j < 2^128 - 1 ->
    snd (xs_next m (xs_advance m st i)) = snd (xs_next m (xs_advance m st j)) -> key i = key j -> i = j).
  { intros i j Hi Hj E F. unfold key in F.
    assert (Wi := xs_words_advance m st i H). assert (Wj := xs_words_advance m st j H).
    apply (xs_orbit m st (2^128 - 1) P D i j Hi Hj). apply (xs_injective m); [exact Wi|exact Wj|].
    destruct Wi as (x & y & z & w & Ei & ? & ? & ? & ?). destruct Wj as (x' & y' & z' & w' & Ej & ? & ? & ? & ?).
    rewrite Ei, Ej. rewrite Ei, Ej in E, F. rewrite !xs_next_ref in E, F by assumption. rewrite !xs_next_ref by assumption. cbn [fst snd] in *.
    apply pair_inj in F as [-> F]; [|apply (pair_lt (2^32) (2^32)); assumption|apply (pair_lt (2^32) (2^32)); assumption].
    apply pair_inj in F as [-> ->]; [|assumption|assumption]. now rewrite E. }
  apply (almost_equally_often _ key).
  - intros i _. assert (W := xs_words_advance m st i H).
    destruct W as (x & y & z & w & -> & ? & ? & ? & ?). rewrite xs_next_ref by assumption. cbn [snd]. now apply xs_word_lt.
  - intros i _. unfold key. assert (W := xs_words_advance m st i H).
    destruct W as (x & y & z & w & -> & ? & ? & ? & ?). rewrite xs_next_ref by assumption. cbn [fst].
    apply (pair_lt (2^64) (2^32)); [|assumption]. now apply (pair_lt (2^32) (2^32)).
  - exact I.
  - intros i _ E F. apply (xs_never_zero m st (N.succ i) H H0).
    unfold xs_advance. rewrite Niter_succ. change (fst (xs_next m (xs_advance m st i)) = xs_zero).
    unfold key in F. assert (W := xs_words_advance m st i H).
    destruct W as (x & y & z & w & Ei & ? & ? & ? & ?). rewrite Ei in E, F |- *.
    rewrite xs_next_ref in E, F by assumption. rewrite xs_next_ref by assumption. cbn [fst snd] in *.
    apply pair_0 in F as [-> F]; [|discriminate]. apply pair_0 in F as [-> ->]; [|discriminate].
    rewrite E. reflexivity.
  - reflexivity.
Qed.

(** ** Xoroshiro128+ *)
Lemma xo_step_zero st : xo_words st -> fst (xo_next st) = xo_zero -> st = xo_zero.
Proof. intros H E. apply xo_bijective; [exact H|exact xo_zero_words|]. rewrite E. now vm_compute. Qed.
Lemma xo_words_advance st i : xo_words st -> xo_words (xo_advance st i).
Proof. intros H. rewrite xo_advance_step. now apply xo_words_iter. Qed.
Lemma xo_never_zero st i : xo_words st -> st <> xo_zero -> xo_advance st i <> xo_zero.
Proof.
  intros H H0. induction i using N.peano_ind; [exact H0|]. unfold xo_advance. rewrite Niter_succ.
  intros F. apply IHi. apply xo_step_zero; [now apply xo_words_advance|exact F].
Qed.
Lemma add_cancel a b b' : a < 2^64 -> b < 2^64 -> b' < 2^64 -> (a + b) mod 2^64 = (a + b') mod 2^64 -> b = b'.
Proof.
  change (2^64) with 18446744073709551616. intros Ha Hb Hb' E.
  assert (A := N.div_mod (a + b) 18446744073709551616 ltac:(lia)).
  assert (B := N.div_mod (a + b') 18446744073709551616 ltac:(lia)).
  assert (L := N.mod_lt (a + b) 18446744073709551616 ltac:(lia)).
  assert (M := N.mod_lt (a + b') 18446744073709551616 ltac:(lia)).
  rewrite E in *. set (r := (a + b') mod 18446744073709551616) in *.
  set (q := (a + b) / 18446744073709551616) in *. set (q' := (a + b') / 18446744073709551616) in *. clearbody r q q'. lia.
Qed.
Lemma xo_orbit st M : xo_advance st M = st -> (forall d, xo_advance st d = st -> N.divide M d) ->
  forall i j, i < M -> j < M -> xo_advance st i = xo_advance st j -> i = j.
Proof. unfold xo_advance. apply orbit_inj. Qed.
Lemma xo_frequency st v : xo_words st -> st <> xo_zero -> v < 2^64 ->
  how_many (fun i => snd (xo_next (xo_advance st i)) =? v) (2^128 - 1) = if v =? 0 then 2^64 - 1 else 2^64.
Proof.
  intros H H0. destruct (xo_advance_period st H H0) as (P & D & _).
  set (key := fun i => aget (xo_advance st i) 0).
  apply (almost_equally_often _ key).
  - intros i _. apply w64_lt.
  - intros i _. unfold key. destruct (xo_words_advance st i H) as (a & b & -> & Ha & Hb). exact Ha.
  - intros i j Hi Hj E F. unfold key in F.
    apply (xo_orbit st (2^128 - 1) P D i j Hi Hj).
    destruct (xo_words_advance st i H) as (a & b & Ei & Ha & Hb). destruct (xo_words_advance st j H) as (a' & b' & Ej & Ha' & Hb').
    rewrite Ei, Ej. rewrite Ei, Ej in E, F. cbn [aget nth] in F. subst a'. unfold xo_next in E. cbn [snd aget nth] in E.
    unfold w64 in E. apply add_cancel in E; [now subst|assumption|assumption|assumption].
  - intros i _ E F. apply (xo_never_zero st i H H0). unfold key in F.
    destruct (xo_words_advance st i H) as (a & b & Ei & Ha & Hb). rewrite Ei in E, F |- *. cbn [aget nth] in F. subst a.
    unfold xo_next in E. cbn [snd aget nth] in E. rewrite N.add_0_l in E. rewrite w64_small in E by exact Hb. now subst.
  - reflexivity.
Qed.
Lemma sm_frequency st v : xo_words st -> st <> xo_zero -> v < 2^32 ->
  how_many (fun i => snd (sm_next (sm_advance st i)) =? v) (2^128 - 1) = if v =? 0 then 2^96 - 1 else 2^96.
Proof.
  intros H H0. destruct (xo_advance_period st H H0) as (P & D & _ & SM).
  set (key := fun i => aget (xo_advance st i) 0 * 2^32 + w64 (aget (xo_advance st i) 0 + aget (xo_advance st i) 1) mod 2^32).
  assert (Out : forall i, snd (sm_next (sm_advance st i)) = w64 (aget (xo_advance st i) 0 + aget (xo_advance st i) 1) / 2^32).
  { intros i. rewrite SM. unfold sm_next. cbn [snd]. rewrite N.shiftr_div_pow2. apply w32_small.
    apply (high_low 32 32). apply w64_lt. }
  apply (almost_equally_often _ key).
  - intros i _. rewrite Out. apply (high_low 32 32). apply w64_lt.
  - intros i _. unfold key. destruct (xo_words_advance st i H) as (a & b & -> & Ha & Hb). cbn [aget nth].
    assert (L := N.mod_lt (w64 (a + b)) (2^32) ltac:(discriminate)).
    exact (pair_lt (2^32) (2^64) _ _ L Ha).
  - intros i j Hi Hj E F. rewrite !Out in E. unfold key in F.
    apply (xo_orbit st (2^128 - 1) P D i j Hi Hj).
    destruct (xo_words_advance st i H) as (a & b & Ei & Ha & Hb). destruct (xo_words_advance st j H) as (a' & b' & Ej & Ha' & Hb').
    rewrite Ei, Ej. rewrite Ei, Ej in E, F. cbn [aget nth] in E, F.
    apply pair_inj in F as [-> F]; [|apply N.mod_lt; discriminate|apply N.mod_lt; discriminate].
    assert (G : w64 (a' + b) = w64 (a' + b')).
    { rewrite (N.div_mod (w64 (a' + b)) (2^32) ltac:(discriminate)), E, F. symmetry. apply N.div_mod. discriminate. }
    unfold w64 in G. apply add_cancel in G; [now subst|assumption|assumption|assumption].
  - intros i _ E F. rewrite Out in E. apply (xo_never_zero st i H H0). unfold key in F.
    destruct (xo_words_advance st i H) as (a & b & Ei & Ha & Hb). rewrite Ei in E, F |- *. cbn [aget nth] in E, F.
    apply pair_0 in F as [-> F]; [|discriminate].
    rewrite N.add_0_l in *. rewrite w64_small in * by exact Hb.
    assert (X := N.div_mod b (2^32) ltac:(discriminate)). rewrite E, F in X. now subst b.
  - reflexivity.
Qed.

(** ** TinyMT *)
(** Three words but for one bit, and the fourth word, determine what came before. *)
Lemma tiny_succ_eq s s' : tiny_words s -> tiny_words s' ->
  let '(t0, t1, t2, t3) := tinymt32_next s in
  let '(u0, u1, u2, u3) := tinymt32_next s' in
  t0 = u0 -> t1 mod 2^31 = u1 mod 2^31 -> t2 = u2 -> t3 = u3 -> tiny127 s = tiny127 s'.
Proof.
  intros Hs Hs'. pose proof (next_inj s s' Hs Hs') as NI.
  destruct s as [[[s0 s1] s2] s3], s' as [[[r0 r1] r2] r3].
  destruct Hs as (H0 & H1 & H2 & H3), Hs' as (K0 & K1 & K2 & K3).
  unfold tinymt32_next in *. cbv zeta in *.
  set (x0 := N.lxor (s0 mod 2 ^ 31) (N.lxor s1 s2)) in *.
  set (z0 := N.lxor (r0 mod 2 ^ 31) (N.lxor r1 r2)) in *.
  assert (Hx0 : x0 < M32) by (repeat apply lxor_lt32; try assumption; apply mod31_lt).
  assert (Hz0 : z0 < M32) by (repeat apply lxor_lt32; try assumption; apply mod31_lt).
  set (x := N.lxor x0 (x0 * 2 mod 2^32)) in *. set (z := N.lxor z0 (z0 * 2 mod 2^32)) in *.
  set (y := N.lxor s3 (N.lxor (s3 / 2) x)) in *. set (w := N.lxor r3 (N.lxor (r3 / 2) z)) in *.
  intros E0 E1 E2 E3.
  assert (G : forall a b c d e, N.lxor (N.lxor a d) e = N.lxor (N.lxor b d) e -> c = c :> N -> a = b).
  { intros a b c d e E _. apply N.bits_inj; intro n. apply (f_equal (fun v => N.testbit v n)) in E.
    rewrite !N.lxor_spec in E. destruct (N.testbit a n), (N.testbit b n), (N.testbit d n), (N.testbit e n); now cbn in E. }
  assert (Ez : x = z). { rewrite E3 in E2. exact (G _ _ 0 _ _ E2 eq_refl). }
  assert (Ex0 : x0 = z0).
  { assert (A : sl1_inv x = x0).
    { unfold x. change (x0 * 2 mod 2^32) with (x0 * 2^1 mod 2^32). rewrite <- (shl32_mul x0 1). now apply sl1_inv_ok. }
    assert (B : sl1_inv z = z0).
    { unfold z. change (z0 * 2 mod 2^32) with (z0 * 2^1 mod 2^32). rewrite <- (shl32_mul z0 1). now apply sl1_inv_ok. }
    rewrite <- A, <- B, Ez. reflexivity. }
  assert (L2 : s2 mod 2^31 = r2 mod 2^31).
  { rewrite E3, !lxor_low31 in E1. apply (G _ _ 0 ((if N.odd w then MAT1 else 0) mod 2^31) 0); [|reflexivity].
    now rewrite E1. }
  assert (T2 : s2 / 2^31 = r2 / 2^31).
  { apply (f_equal (fun v => v / 2^31)) in Ex0. unfold x0, z0 in Ex0. rewrite !lxor_high31 in Ex0.
    replace (s0 mod 2^31 / 2^31) with 0 in Ex0 by (symmetry; apply N.div_small, N.mod_lt; discriminate).
    replace (r0 mod 2^31 / 2^31) with 0 in Ex0 by (symmetry; apply N.div_small, N.mod_lt; discriminate).
    rewrite !N.lxor_0_l, E0, !(N.lxor_comm (r1 / 2^31)) in Ex0.
    apply (G _ _ 0 (r1 / 2^31) 0); [|reflexivity]. now rewrite Ex0. }
  assert (E4 : s2 = r2) by (apply high31_eq; assumption).
  apply NI. unfold tiny127. rewrite E0, E4, E2, E3. reflexivity.
Qed.

Definition tkey (t : tstate) : N :=
  let '(t0, t1, t2, t3) := t in t0 * 2^63 + (t1 mod 2^31 * 2^32 + t2).
Lemma tkey_lt t : tiny_words t -> tkey t < 2^95.
Proof.
  destruct t as [[[t0 t1] t2] t3]. intros (H0 & H1 & H2 & H3). unfold tkey.
  assert (L := N.mod_lt t1 (2^31) ltac:(discriminate)).
  apply (pair_lt (2^63) (2^32)); [|assumption]. apply (pair_lt (2^32) (2^31)); assumption.
Qed.
Lemma temper_cancel t0 t1 t2 t3 u1 u3 :
  tinymt32_temper (t0, t1, t2, t3) = tinymt32_temper (t0, u1, t2, u3) -> t3 = u3.
Proof.
  unfold tinymt32_temper. cbv zeta. set (a := (t0 + t2 / 2^8) mod 2^32). set (c := if N.odd a then TMAT else 0).
  clearbody a c. intros E. apply N.bits_inj; intro n. apply (f_equal (fun v => N.testbit v n)) in E.
  rewrite !N.lxor_spec in E. destruct (N.testbit t3 n), (N.testbit u3 n), (N.testbit a n), (N.testbit c n); now cbn in E.
Qed.
Lemma tiny_out_key s s' : tiny_words s -> tiny_words s' ->
  tinymt32_temper (tinymt32_next s) = tinymt32_temper (tinymt32_next s') ->
  tkey (tinymt32_next s) = tkey (tinymt32_next s') -> tiny127 s = tiny127 s'.
Proof.
  intros Hs Hs' E F. pose proof (tiny_succ_eq s s' Hs Hs') as S.
  pose proof (next_words s Hs) as Wt. pose proof (next_words s' Hs') as Wu.
  destruct (tinymt32_next s) as [[[t0 t1] t2] t3], (tinymt32_next s') as [[[u0 u1] u2] u3].
  destruct Wt as (H0 & H1 & H2 & H3), Wu as (K0 & K1 & K2 & K3). unfold tkey in F.
  assert (Lt := N.mod_lt t1 (2^31) ltac:(discriminate)). assert (Lu := N.mod_lt u1 (2^31) ltac:(discriminate)).
  apply pair_inj in F as [-> F];
    [|apply (pair_lt (2^32) (2^31)); assumption|apply (pair_lt (2^32) (2^31)); assumption].
  apply pair_inj in F as [F1 ->]; [|assumption|assumption].
  apply temper_cancel in E. now apply S.
Qed.
Lemma tiny_zero_key s : tiny_words s -> tinymt32_temper (tinymt32_next s) = 0 ->
  tkey (tinymt32_next s) = 0 -> tiny127 s = (0, 0, 0, 0).
Proof.
  intros H E F. apply (tiny_out_key s (0, 0, 0, 0) H).
  - now vm_compute.
  - rewrite E. now vm_compute.
  - rewrite F. now vm_compute.
Qed.
Lemma iter127 s n : N.iter n (fun u => tiny127 (tinymt32_next u)) (tiny127 s) = tiny127 (N.iter n tinymt32_next s).
Proof.
  induction n as [|n IH] using N.peano_ind; [reflexivity|].
  rewrite !Niter_succ, IH, next_tiny127. reflexivity.
Qed.
Lemma tiny_arr_inj s t : tiny_arr s = tiny_arr t -> s = t.
Proof. destruct s as [[[a b] c] d], t as [[[a' b'] c'] d']. unfold tiny_arr. intros E. injection E as -> -> -> ->. reflexivity. Qed.
Lemma tiny_next_temper m s : tiny_words s ->
  snd (tiny_next m (tiny_arr s)) mod 2^32 = tinymt32_temper (tinymt32_next s).
Proof.
  intros H. unfold tiny_next. cbn [snd]. rewrite shuffle_ref by exact H. pose proof (next_words s H) as W.
  pose proof (temper_ref_lt _ W) as L. destruct m.
  - rewrite temper_ref_numpy by exact W. now apply N.mod_small.
  - rewrite temper_ref_numba by exact W. rewrite N.mul_comm, N.mod_add by discriminate. now apply N.mod_small.
Qed.
Lemma tiny_orbit s M : tiny127 (N.iter M tinymt32_next s) = tiny127 s ->
  (forall d, tiny127 (N.iter d tinymt32_next s) = tiny127 s -> N.divide M d) ->
  forall i j, i < M -> j < M -> tiny127 (N.iter i tinymt32_next s) = tiny127 (N.iter j tinymt32_next s) -> i = j.
Proof.
  intros P D i j Hi Hj E. apply (orbit_inj (fun u => tiny127 (tinymt32_next u)) (tiny127 s) M); try assumption.
  - now rewrite iter127.
  - intros d. rewrite iter127. apply D.
  - now rewrite !iter127.
Qed.
Lemma tiny_never_zero s n : tiny_words s -> tiny127 s <> (0, 0, 0, 0) ->
  tiny127 (N.iter n tinymt32_next s) <> (0, 0, 0, 0).
Proof.
  intros H H0. induction n as [|n IH] using N.peano_ind; [exact H0|].
  rewrite Niter_succ. intros F. apply IH. apply next_zero; [apply (iter_ref NumPy s n H)|exact F].
Qed.
Lemma tiny_period_facts s : tiny_words s -> tiny127 s <> (0, 0, 0, 0) ->
  tiny127 (N.iter (2^127 - 1) tinymt32_next s) = tiny127 s /\
  (forall d, tiny127 (N.iter d tinymt32_next s) = tiny127 s -> N.divide (2^127 - 1) d).
Proof.
  generalize (2^127 - 1), (tiny_full_period NumPy s). cbv zeta. intros M FP H H0.
  destruct (FP H H0) as ((t & Wt & Et & Ft) & D & _). split.
  - unfold tiny_advance in Et. rewrite (proj1 (iter_ref NumPy s M H)) in Et. apply tiny_arr_inj in Et. now rewrite Et.
  - intros d E. apply (D d (N.iter d tinymt32_next s)); [apply (iter_ref NumPy s d H)| |exact E].
    unfold tiny_advance. apply (iter_ref NumPy s d H).
Qed.
Lemma tiny_frequency m s v : tiny_words s -> tiny127 s <> (0, 0, 0, 0) -> v < 2^32 ->
  how_many (fun i => snd (tiny_next m (tiny_advance m (tiny_arr s) i)) mod 2^32 =? v) (2^127 - 1)
  = if v =? 0 then 2^95 - 1 else 2^95.
Proof.
  intros H H0. destruct (tiny_period_facts s H H0) as [P D].
  assert (Wi : forall i, tiny_words (N.iter i tinymt32_next s)) by (intros i; apply (iter_ref NumPy s i H)).
  assert (O : forall i, snd (tiny_next m (tiny_advance m (tiny_arr s) i)) mod 2^32
              = tinymt32_temper (tinymt32_next (N.iter i tinymt32_next s))).
  { intros i. unfold tiny_advance. rewrite (proj1 (iter_ref m s i H)). now apply tiny_next_temper. }
  apply (almost_equally_often _ (fun i => tkey (tinymt32_next (N.iter i tinymt32_next s)))).
  - intros i _. apply N.mod_lt. discriminate.
  - intros i _. apply tkey_lt, next_words, Wi.
  - intros i j Hi Hj E F. rewrite !O in E. apply (tiny_orbit s (2^127 - 1) P D i j Hi Hj).
    apply tiny_out_key; try apply Wi; assumption.
  - intros i _ E F. rewrite O in E. apply (tiny_never_zero s i H H0).
    exact (tiny_zero_key _ (Wi i) E F).
  - reflexivity.
Qed.
