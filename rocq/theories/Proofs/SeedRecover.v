(** The seeds of MT19937, SFMT19937, Xorshift128 and xoroshiro128+ follow from a few
    outputs. *)
From Coq Require Import NArith List Bool Lia PeanoNat.
From Verif Require Import Base.Word Base.WordLemmas Model.MT Model.SFMT Model.Xorshift Model.Xoroshiro
  Spec.MTSpec Spec.MTHistory Spec.SFMTSpec Spec.SFMTHistory Spec.XorshiftSpec Spec.RecoverSpec
  Proofs.MTProofs Proofs.MTFinal Proofs.SFMTProofs Proofs.SFMTFinal Proofs.XorshiftProofs.
Import ListNotations.
Ltac Zify.zify_post_hook ::= idtac.
Open Scope N_scope.

(** ** Steps y ^= y >> k and y ^= (y << k) & mask *)
Lemma xor_shiftr_inj k y y' : 0 < k ->
  N.lxor y (N.shiftr y k) = N.lxor y' (N.shiftr y' k) -> y = y'.
Proof.
  intros Hk E. set (d := N.lxor y y').
  assert (D : d = N.shiftr d k).
  { apply N.lxor_eq. unfold d. rewrite N.shiftr_lxor.
    replace (N.lxor (N.lxor y y') (N.lxor (N.shiftr y k) (N.shiftr y' k)))
      with (N.lxor (N.lxor y (N.shiftr y k)) (N.lxor y' (N.shiftr y' k))).
    - rewrite E. apply N.lxor_nilpotent.
    - rewrite !N.lxor_assoc. f_equal. rewrite <- !N.lxor_assoc. f_equal. apply N.lxor_comm. }
  apply N.lxor_eq. fold d. destruct (N.eq_dec d 0) as [|Hd]; [assumption|exfalso].
  rewrite N.shiftr_div_pow2 in D.
  assert (d / 2 ^ k < d); [|lia].
  apply N.div_lt; [lia|]. apply N.pow_gt_1; lia.
Qed.
Lemma xor_shiftl_inj k (mask : N -> bool) y y' : 0 < k ->
  (forall n, xorb (N.testbit y n) (mask n && (k <=? n) && N.testbit y (n - k)) =
             xorb (N.testbit y' n) (mask n && (k <=? n) && N.testbit y' (n - k))) -> y = y'.
Proof.
  intros Hk E. apply N.bits_inj. intros n. induction n as [n IH] using (well_founded_induction N.lt_wf_0).
  specialize (E n). destruct (N.leb_spec k n) as [L|L].
  - rewrite (IH (n - k)) in E by lia. destruct (mask n && true && N.testbit y' (n - k)); destruct (N.testbit y n), (N.testbit y' n); simpl in E; congruence.
  - rewrite !andb_false_r in E. destruct (N.testbit y n), (N.testbit y' n); simpl in E; congruence.
Qed.
Lemma xor_shl_mask_inj k w mask y y' : 0 < k ->
  N.lxor y (N.land ((y * 2 ^ k) mod 2 ^ w) mask) = N.lxor y' (N.land ((y' * 2 ^ k) mod 2 ^ w) mask) -> y = y'.
Proof.
  intros Hk E. apply (xor_shiftl_inj k (fun n => N.testbit mask n && (n <? w)) y y' Hk). intros n.
  pose proof (f_equal (fun v => N.testbit v n) E) as B. cbv beta in B.
  rewrite !N.lxor_spec, !N.land_spec, <- !N.shiftl_mul_pow2 in B.
  assert (G : forall v, N.testbit (N.shiftl v k mod 2 ^ w) n = (n <? w) && ((k <=? n) && N.testbit v (n - k))).
  { intros v. destruct (N.ltb_spec n w) as [L|L].
    - rewrite N.mod_pow2_bits_low by exact L. apply shiftl_bits.
    - now rewrite N.mod_pow2_bits_high by exact L. }
  rewrite !G in B.
  destruct (N.testbit y n), (N.testbit y' n), (N.testbit mask n), (n <? w), (k <=? n),
    (N.testbit y (n - k)), (N.testbit y' (n - k)); simpl in B |- *; congruence.
Qed.
Lemma xor_shl_inj k w y y' : 0 < k -> y < 2 ^ w -> y' < 2 ^ w ->
  N.lxor y ((y * 2 ^ k) mod 2 ^ w) = N.lxor y' ((y' * 2 ^ k) mod 2 ^ w) -> y = y'.
Proof.
  intros Hk Hy Hy' E. apply (xor_shl_mask_inj k w (N.ones w) y y' Hk).
  assert (Hw : 2 ^ w <> 0) by (apply N.pow_nonzero; discriminate).
  rewrite !N.land_ones, !N.mod_mod by exact Hw. exact E.
Qed.

Lemma lxor_cancel_l a b c : N.lxor a b = N.lxor a c -> b = c.
Proof.
  intros E. rewrite <- (N.lxor_0_l b), <- (N.lxor_0_l c), <- (N.lxor_nilpotent a), !N.lxor_assoc. now rewrite E.
Qed.

Lemma temper_inj y y' : mt19937_temper y = mt19937_temper y' -> y = y'.
Proof.
  unfold mt19937_temper. cbv zeta. intros E.
  rewrite <- !(N.shiftr_div_pow2 _ 18) in E. apply xor_shiftr_inj in E; [|reflexivity].
  apply xor_shl_mask_inj in E; [|reflexivity]. apply xor_shl_mask_inj in E; [|reflexivity].
  rewrite <- !(N.shiftr_div_pow2 _ 11) in E. apply xor_shiftr_inj in E; [|reflexivity]. exact E.
Qed.

(** ** Knuth's initialisation *)
Lemma lxor_lt w x y : x < 2 ^ w -> y < 2 ^ w -> N.lxor x y < 2 ^ w.
Proof.
  intros Hx Hy. apply lt_pow2_bits. intros n Hn. rewrite N.lxor_spec.
  now rewrite (bits_above_lt x w n), (bits_above_lt y w n).
Qed.
Lemma odd_mult_inj w a b x y : a * b mod 2 ^ w = 1 -> x < 2 ^ w -> y < 2 ^ w ->
  forall c, (a * x + c) mod 2 ^ w = (a * y + c) mod 2 ^ w -> x = y.
Proof.
  intros Hab Hx Hy c E. assert (Hw : 2 ^ w <> 0) by (apply N.pow_nonzero; discriminate).
  set (M := 2 ^ w) in *.
  assert (E1 : (a * x) mod M = (a * y) mod M).
  { assert (Hc : exists c', (c + c') mod M = 0).
    { exists (M * c - c). replace (c + (M * c - c)) with (c * M); [now apply N.mod_mul|].
      assert (c <= M * c); [|lia]. rewrite <- (N.mul_1_l c) at 1. apply N.mul_le_mono_r. lia. }
    destruct Hc as [c' Hc].
    assert (F : forall v, (a * v) mod M = (((a * v + c) mod M) + c') mod M).
    { intros v. rewrite N.add_mod_idemp_l by exact Hw. rewrite <- N.add_assoc, N.add_mod, Hc, N.add_0_r by exact Hw.
      now rewrite N.mod_mod. }
    now rewrite (F x), (F y), E. }
  assert (F : forall v, v < M -> v = (b * ((a * v) mod M)) mod M).
  { intros v Hv. rewrite N.mul_mod_idemp_r by exact Hw. rewrite N.mul_assoc, (N.mul_comm b a).
    rewrite N.mul_mod, Hab, N.mul_1_l, N.mod_mod by exact Hw. now rewrite N.mod_small. }
  rewrite (F x Hx), (F y Hy), E1. reflexivity.
Qed.
Lemma knuth_step_inj i x y : x < 2 ^ 32 -> y < 2 ^ 32 ->
  (1812433253 * N.lxor x (x / 2 ^ 30) + i) mod 2 ^ 32 = (1812433253 * N.lxor y (y / 2 ^ 30) + i) mod 2 ^ 32 ->
  x = y.
Proof.
  intros Hx Hy E.
  assert (B : forall v, v < 2 ^ 32 -> N.lxor v (v / 2 ^ 30) < 2 ^ 32).
  { intros v Hv. apply lxor_lt; [exact Hv|]. apply N.le_lt_trans with v; [|exact Hv].
    apply N.div_le_upper_bound; [discriminate|]. change (2 ^ 30) with 1073741824. lia. }
  apply (odd_mult_inj 32 1812433253 0x9638806D) in E; [|vm_compute; reflexivity|now apply B|now apply B].
  rewrite <- !N.shiftr_div_pow2 in E. now apply xor_shiftr_inj in E.
Qed.
Lemma knuth_inj (v v' : nat -> N) n :
  v 0%nat < 2 ^ 32 -> v' 0%nat < 2 ^ 32 ->
  (forall i, (i < n)%nat -> v (S i) = (1812433253 * N.lxor (v i) (v i / 2^30) + N.of_nat (S i)) mod 2^32) ->
  (forall i, (i < n)%nat -> v' (S i) = (1812433253 * N.lxor (v' i) (v' i / 2^30) + N.of_nat (S i)) mod 2^32) ->
  v n = v' n -> v 0%nat = v' 0%nat.
Proof.
  intros H0 H0'. induction n as [|n IH]; intros R R' E; [exact E|].
  assert (L : forall u : nat -> N, u 0%nat < 2 ^ 32 ->
    (forall i, (i < S n)%nat -> u (S i) = (1812433253 * N.lxor (u i) (u i / 2^30) + N.of_nat (S i)) mod 2^32) ->
    u n < 2 ^ 32).
  { intros u U0 U. destruct n; [exact U0|]. rewrite U by lia. apply N.mod_lt. discriminate. }
  apply IH; [intros i Hi; apply R; lia|intros i Hi; apply R'; lia|].
  rewrite R, R' in E by lia. apply knuth_step_inj in E; [exact E|now apply L|now apply L].
Qed.

(** ** MT19937 *)
Lemma half_lt y : y < 2 ^ 32 -> y / 2 < 2 ^ 31.
Proof. intros H. apply N.div_lt_upper_bound; [discriminate|]. exact H. Qed.
Lemma twisted_inj y y' : y < 2 ^ 32 -> y' < 2 ^ 32 ->
  (if N.odd y then N.lxor (y / 2) 0x9908B0DF else y / 2) =
  (if N.odd y' then N.lxor (y' / 2) 0x9908B0DF else y' / 2) -> y = y'.
Proof.
  intros Hy Hy' E. pose proof (N.div2_odd y) as P. pose proof (N.div2_odd y') as P'.
  rewrite N.div2_div in P, P'.
  assert (G : forall a b, a < 2 ^ 31 -> b < 2 ^ 31 -> N.lxor a 0x9908B0DF <> b).
  { intros a b Ha Hb H. assert (C : N.testbit (N.lxor a 0x9908B0DF) 31 = N.testbit b 31) by now rewrite H.
    rewrite N.lxor_spec, (bits_above_lt a 31 31), (bits_above_lt b 31 31) in C by (assumption || discriminate).
    vm_compute in C. discriminate. }
  destruct (N.odd y), (N.odd y').
  - assert (Q : y / 2 = y' / 2).
    { rewrite <- (N.lxor_0_r (y / 2)), <- (N.lxor_0_r (y' / 2)), <- (N.lxor_nilpotent 0x9908B0DF), <- !N.lxor_assoc.
      now rewrite E. }
    rewrite P, P', Q. reflexivity.
  - exfalso. exact (G _ _ (half_lt y Hy) (half_lt y' Hy') E).
  - exfalso. exact (G _ _ (half_lt y' Hy') (half_lt y Hy) (eq_sym E)).
  - rewrite P, P', E. reflexivity.
Qed.
Lemma twist_inj u v u' v' : mt19937_twist u v = mt19937_twist u' v' ->
  (u / 2 ^ 31) mod 2 = (u' / 2 ^ 31) mod 2 /\ v mod 2 ^ 31 = v' mod 2 ^ 31.
Proof.
  unfold mt19937_twist. cbv zeta.
  pose proof (N.mod_lt (u / 2 ^ 31) 2 ltac:(discriminate)) as A. pose proof (N.mod_lt (u' / 2 ^ 31) 2 ltac:(discriminate)) as A'.
  pose proof (N.mod_lt v (2 ^ 31) ltac:(discriminate)) as B. pose proof (N.mod_lt v' (2 ^ 31) ltac:(discriminate)) as B'.
  revert A A' B B'. generalize ((u / 2 ^ 31) mod 2), ((u' / 2 ^ 31) mod 2), (v mod 2 ^ 31), (v' mod 2 ^ 31).
  intros a a' b b' A A' B B' E. change (2 ^ 31) with 2147483648 in *.
  apply twisted_inj in E; change (2 ^ 32) with 4294967296; lia.
Qed.

Lemma mt_words seed x : MT19937 seed x -> forall i, x i < 2 ^ 32.
Proof. exact (mt19937_lt seed x). Qed.

Lemma mt_recover seed seed' x x' : MT19937 seed x -> MT19937 seed' x' ->
  (forall k, In k [395; 396; 622; 623]%nat -> mt19937_output x k = mt19937_output x' k) ->
  seed mod 2 ^ 32 = seed' mod 2 ^ 32.
Proof.
  intros H H' E.
  assert (W : forall k, In k [395; 396; 622; 623]%nat -> x (624 + k)%nat = x' (624 + k)%nat).
  { intros k Hk. apply temper_inj. exact (E k Hk). }
  pose proof (W 395%nat ltac:(cbn; auto)) as W1. pose proof (W 396%nat ltac:(cbn; auto)) as W2.
  pose proof (W 622%nat ltac:(cbn; auto)) as W3. pose proof (W 623%nat ltac:(cbn; auto)) as W4.
  clear E W.
  pose proof (mt19937_rec _ _ H 622%nat) as R. pose proof (mt19937_rec _ _ H' 622%nat) as R'.
  pose proof (mt19937_rec _ _ H 623%nat) as T. pose proof (mt19937_rec _ _ H' 623%nat) as T'.
  change (622 + 624)%nat with (624 + 622)%nat in R, R'. change (623 + 624)%nat with (624 + 623)%nat in T, T'.
  change (622 + 397)%nat with (624 + 395)%nat in R, R'. change (623 + 397)%nat with (624 + 396)%nat in T, T'.
  change (622 + 1)%nat with 623%nat in R, R'. change (623 + 1)%nat with 624%nat in T, T'.
  rewrite W3, R', W1 in R. rewrite W4, T', W2 in T.
  apply lxor_cancel_l in R. apply lxor_cancel_l in T.
  apply twist_inj in R. apply twist_inj in T. destruct R as [_ L]. destruct T as [U _].
  assert (E : x' 623%nat = x 623%nat).
  { pose proof (mt_words _ _ H 623%nat) as A. pose proof (mt_words _ _ H' 623%nat) as A'.
    assert (G : forall v, v < 2 ^ 32 -> v = (v / 2 ^ 31) mod 2 * 2 ^ 31 + v mod 2 ^ 31).
    { intros v Hv. rewrite (N.mod_small (v / 2 ^ 31)) by (apply N.div_lt_upper_bound; [discriminate|exact Hv]).
      rewrite N.mul_comm. apply N.div_mod. discriminate. }
    rewrite (G _ A), (G _ A'), U, L. reflexivity. }
  rewrite <- (mt19937_first _ _ H), <- (mt19937_first _ _ H').
  symmetry. apply (knuth_inj x' x 623); try exact E; try (apply mt_words with (1 := H')); try (apply mt_words with (1 := H)).
  - exact (mt19937_init _ _ H').
  - exact (mt19937_init _ _ H).
Qed.

Lemma nth_map_seq (f : nat -> outcome) n k : (k < n)%nat -> nth_error (map f (seq 0 n)) k = Some (f k).
Proof.
  intros H. rewrite nth_error_map. rewrite (nth_error_nth' (seq 0 n) 0%nat) by now rewrite seq_length.
  now rewrite seq_nth.
Qed.
Lemma small_seed s s' w : s < 2 ^ w -> s' < 2 ^ w -> s mod 2 ^ w = s' mod 2 ^ w -> s = s'.
Proof. intros H H'. now rewrite !N.mod_small. Qed.

Lemma mt_seed_recovered m m' junk junk' seed seed' :
  length junk = 624%nat -> length junk' = 624%nat -> seed < 2 ^ 32 -> seed' < 2 ^ 32 ->
  (forall k, In k [395; 396; 622; 623]%nat ->
     nth_error (mt_outputs_of m (mt_new junk seed) 624) k =
     nth_error (mt_outputs_of m' (mt_new junk' seed') 624) k) -> seed = seed'.
Proof.
  intros J J' Hs Hs' E. apply (small_seed _ _ 32); try assumption.
  destruct (mt19937_ex_unique seed) as [x [Hx _]]. destruct (mt19937_ex_unique seed') as [x' [Hx' _]].
  apply (mt_recover _ _ x x' Hx Hx'). intros k Hk.
  assert (L : (k < 624)%nat) by (cbn [In] in Hk; lia).
  pose proof (mt_outputs m x junk seed 624 Hx J : mt_outputs_of m (mt_new junk seed) 624 = _) as P.
  pose proof (mt_outputs m' x' junk' seed' 624 Hx' J' : mt_outputs_of m' (mt_new junk' seed') 624 = _) as P'.
  specialize (E k Hk). rewrite P, P' in E.
  rewrite !nth_map_seq in E by exact L.
  assert (G : forall a b, Some (OVal a) = Some (OVal b) -> a = b) by (intros a b Q; now inversion Q).
  apply G in E. exact E.
Qed.

(** ** SFMT19937 *)
Lemma word_of_halves (W W' : nat -> N) j :
  half64 W (2 * j) = half64 W' (2 * j) -> half64 W (2 * j + 1) = half64 W' (2 * j + 1) -> W j = W' j.
Proof.
  unfold half64. rewrite Nat.even_mul. cbn [Nat.even orb].
  assert (D : Nat.div2 (2 * j + 1) = j) by (rewrite Nat.add_1_r; apply Nat.div2_succ_double).
  rewrite D, Nat.div2_double.
  assert (Ev : Nat.even (2 * j + 1) = false) by (rewrite Nat.even_add, Nat.even_mul; reflexivity).
  rewrite Ev. intros A B.
  rewrite (N.div_mod (W j) (2 ^ 64)), (N.div_mod (W' j) (2 ^ 64)) by discriminate. now rewrite A, B.
Qed.
Lemma recursion_inj a a' b c d : a < 2 ^ 128 -> a' < 2 ^ 128 ->
  sfmt_recursion a b c d = sfmt_recursion a' b c d -> a = a'.
Proof.
  intros Ha Ha' E. unfold sfmt_recursion in E. rewrite <- !(N.lxor_assoc _ (_ mod _)) in E.
  apply (xor_shl_inj 8 128); try assumption; [reflexivity|].
  match type of E with N.lxor _ ?z = N.lxor _ ?z => generalize dependent z end. intros z E.
  rewrite (N.lxor_comm _ z), (N.lxor_comm _ z) in E. now apply lxor_cancel_l in E.
Qed.
Lemma sfmt_recover seed seed' W W' : SFMT19937 seed W -> SFMT19937 seed' W' ->
  (forall k, In k [0; 1; 64; 65; 66; 67; 68; 69]%nat -> sfmt19937_output W k = sfmt19937_output W' k) ->
  seed mod 2 ^ 32 = seed' mod 2 ^ 32.
Proof.
  intros H H' E.
  assert (G : forall j, In j [0; 32; 33; 34]%nat -> W (156 + j)%nat = W' (156 + j)%nat).
  { intros j Hj. apply word_of_halves.
    - replace (2 * (156 + j))%nat with (312 + 2 * j)%nat by lia. apply E. cbn [In] in Hj |- *. lia.
    - replace (2 * (156 + j) + 1)%nat with (312 + (2 * j + 1))%nat by lia. apply E. cbn [In] in Hj |- *. lia. }
  pose proof (G 0%nat ltac:(cbn; auto)) as G0. pose proof (G 32%nat ltac:(cbn; auto)) as G1.
  pose proof (G 33%nat ltac:(cbn; auto)) as G2. pose proof (G 34%nat ltac:(cbn; auto)) as G3. clear G E.
  pose proof (sfmt19937_rec _ _ H 34%nat) as R. pose proof (sfmt19937_rec _ _ H' 34%nat) as R'.
  change (34 + 156)%nat with (156 + 34)%nat in R, R'. change (34 + 122)%nat with (156 + 0)%nat in R, R'.
  change (34 + 154)%nat with (156 + 32)%nat in R, R'. change (34 + 155)%nat with (156 + 33)%nat in R, R'.
  rewrite G3, R', G0, G1, G2 in R.
  apply recursion_inj in R; [|apply (SFMT_lt _ _ H')|apply (SFMT_lt _ _ H)].
  destruct (sfmt19937_init _ _ H) as [v [K [_ I]]]. destruct (sfmt19937_init _ _ H') as [v' [K' [_ I']]].
  rewrite I, I' in R by lia.
  assert (B : forall s u, knuth_init s u -> forall i, (i < 624)%nat -> u i < 4294967296).
  { intros s u Ku i Hi. destruct i; [rewrite (knuth_first _ _ Ku)|rewrite (knuth_next _ _ Ku) by lia];
      apply N.mod_lt; discriminate. }
  assert (E : v' 136%nat = v 136%nat).
  { assert (L : forall s u, knuth_init s u -> lane 0 (word128 u 34) = u 136%nat).
    { intros s u Ku. unfold word128. apply lane_of_lanes; apply (B s u Ku); lia. }
    rewrite <- (L _ _ K), <- (L _ _ K'), R. reflexivity. }
  rewrite <- (knuth_first _ _ K), <- (knuth_first _ _ K').
  symmetry. apply (knuth_inj v' v 136); try exact E.
  - apply (B _ _ K'). lia.
  - apply (B _ _ K). lia.
  - intros i Hi. apply (knuth_next _ _ K'). lia.
  - intros i Hi. apply (knuth_next _ _ K). lia.
Qed.

Lemma sfmt_seed_recovered m m' junk junk' seed seed' :
  length junk = 624%nat -> length junk' = 624%nat -> seed < 2 ^ 32 -> seed' < 2 ^ 32 ->
  (forall k, In k [0; 1; 64; 65; 66; 67; 68; 69]%nat ->
     nth_error (sfmt_outputs_of m (sfmt_new junk seed) 70) k =
     nth_error (sfmt_outputs_of m' (sfmt_new junk' seed') 70) k) -> seed = seed'.
Proof.
  intros J J' Hs Hs' E. apply (small_seed _ _ 32); try assumption.
  destruct (sfmt_ex_unique seed) as [x [Hx _]]. destruct (sfmt_ex_unique seed') as [x' [Hx' _]].
  apply (sfmt_recover _ _ x x' Hx Hx'). intros k Hk.
  assert (L : (k < 70)%nat) by (cbn [In] in Hk; lia).
  pose proof (sfmt_outputs m x junk seed 70 Hx J : sfmt_outputs_of m (sfmt_new junk seed) 70 = _) as P.
  pose proof (sfmt_outputs m' x' junk' seed' 70 Hx' J' : sfmt_outputs_of m' (sfmt_new junk' seed') 70 = _) as P'.
  specialize (E k Hk). rewrite P, P' in E.
  rewrite !nth_map_seq in E by exact L.
  assert (G : forall a b, Some (OVal a) = Some (OVal b) -> a = b) by (intros a b Q; now inversion Q).
  apply G in E. exact E.
Qed.

(** ** Xorshift128 and xoroshiro128+ *)
Lemma xs_state_recovered m m' st st' : xs_words st -> xs_words st' ->
  results (xs_next m) 4 st = results (xs_next m') 4 st' -> st = st'.
Proof.
  intros H H' E.
  assert (N4 : forall k s, xs_words s -> xs_words (fst (xs_next k s))).
  { intros k s (x & y & z & w & -> & Hx & Hy & Hz & Hw). rewrite xs_next_ref by assumption. cbn [fst].
    exists y, z, w, (xs_word x w). repeat split; try assumption. now apply xs_word_lt. }
  assert (S : forall k s, xs_words s -> results (xs_next k) 4 s =
     fst (xs_next k (fst (xs_next k (fst (xs_next k (fst (xs_next k s)))))))).
  { intros k s (x & y & z & w & -> & Hx & Hy & Hz & Hw). unfold results.
    rewrite xs_next_ref by assumption. cbn [fst].
    assert (L1 : xs_word x w < 2 ^ 32) by now apply xs_word_lt.
    rewrite xs_next_ref by assumption. cbn [fst].
    assert (L2 : xs_word y (xs_word x w) < 2 ^ 32) by now apply xs_word_lt.
    rewrite xs_next_ref by assumption. cbn [fst].
    assert (L3 : xs_word z (xs_word y (xs_word x w)) < 2 ^ 32) by now apply xs_word_lt.
    rewrite xs_next_ref by assumption. reflexivity. }
  rewrite !S in E by assumption.
  assert (I : forall s s', xs_words s -> xs_words s' -> fst (xs_next m s) = fst (xs_next m' s') -> s = s').
  { intros s s' Hs Hs' Q.
    assert (M : forall s, xs_words s -> xs_next m' s = xs_next m s).
    { intros u (x & y & z & w & -> & Hx & Hy & Hz & Hw). now rewrite !xs_next_ref. }
    rewrite M in Q by exact Hs'.
    pose proof (xs_previous_next m s Hs) as P. pose proof (xs_previous_next m s' Hs') as P'.
    rewrite Q, P' in P. congruence. }
  repeat (apply I in E; [|repeat apply N4; assumption|repeat apply N4; assumption]).
  exact E.
Qed.

Lemma xo_seed_recovered junk junk' s s' seed1 :
  length junk = 2%nat -> length junk' = 2%nat -> s < 2 ^ 64 -> s' < 2 ^ 64 ->
  snd (xo_next (xo_new junk s seed1)) = snd (xo_next (xo_new junk' s' seed1)) -> s = s'.
Proof.
  intros J J' Hs Hs' E.
  destruct junk as [|a [|b [|]]]; try discriminate J. destruct junk' as [|a' [|b' [|]]]; try discriminate J'.
  cbn in E. change (2 ^ 64) with 18446744073709551616 in *.
  rewrite !(w64_small s), !(w64_small s') in E by assumption. pose proof (w64_lt seed1) as B. 
  unfold w64 at 1 3 in E. revert E B. generalize (w64 seed1). intros c E B. clear -Hs Hs' E B.
  apply (odd_mult_inj 64 1 1 s s' eq_refl Hs Hs' c). now rewrite !N.mul_1_l.
Qed.
