(** Properties C23 to C30, C63 to C66, and the Xorshift, Xoroshiro and LCRNG parts of C13. *)
From Coq Require Import NArith ZArith QArith Qabs List SpecFloat.
From Verif Require Import Base.Word Model.Float Model.Xorshift Model.Xoroshiro Model.TinyMT Model.Lcrng32 Model.Lcrng64.
From Verif Require Import Spec.XorshiftSpec Spec.TinySpec Proofs.XorshiftProofs Proofs.XorshiftRange Proofs.XoroshiroProofs.
From Verif Require Import Spec.FloatSpec Proofs.XorshiftFloat.
From Verif Require Import Proofs.XorshiftFinal Proofs.TinyProofs Proofs.TinyPeriod.
Import ListNotations.
Open Scope N_scope.

(** C23. On every state of four words (all objects have one, see the last theorem),
    previous undoes next and returns what it had returned, and next undoes previous. *)
Theorem C23_xorshift_previous_undoes_next : forall m st, xs_words st ->
  xs_previous m (fst (xs_next m st)) = (st, snd (xs_next m st)).
Proof. exact xs_previous_next. Qed.
Print Assumptions C23_xorshift_previous_undoes_next.
Theorem C23_xorshift_next_undoes_previous : forall m st, xs_words st ->
  xs_words (fst (xs_previous m st)) /\ xs_next m (fst (xs_previous m st)) = (st, snd (xs_previous m st)).
Proof. exact xs_next_previous. Qed.
Print Assumptions C23_xorshift_next_undoes_previous.
Theorem C23_xorshift_objects_hold_words : forall m st, xs_reached m st -> xs_words st.
Proof. exact xs_reached_words. Qed.
Print Assumptions C23_xorshift_objects_hold_words.
Example C23_case :
  xs_words [0x12345678; 0x9ABCDEF0; 0xFFFFFFFF; 1] /\
  xs_reached NumPy (fst (xs_calls NumPy (xs_new [7; 7; 7; 7] 1 2 3 4) [XNext; XPrev; XPrev; XRange (-5) 6; XRand 3])) /\
  xs_previous Numba [0x12345678; 0x9ABCDEF0; 0xFFFFFFFF; 1] = ([3225938145; 0x12345678; 0x9ABCDEF0; 0xFFFFFFFF], 1).
Proof.
  split; [|split].
  - exists 0x12345678, 0x9ABCDEF0, 0xFFFFFFFF, 1. now repeat split.
  - exists [7; 7; 7; 7], 1, 2, 3, 4, [XNext; XPrev; XPrev; XRange (-5) 6; XRand 3]. now repeat split.
  - now vm_compute.
Qed.

(** C24. *)
Theorem C24_xorshift_next_rand : forall m st maximum, 1 <= maximum < 2^32 ->
  xs_next_rand m st maximum = (fst (xs_next m st), Ok (snd (xs_next m st) mod maximum)) /\
  snd (xs_next m st) mod maximum < maximum.
Proof. exact xs_rand_range. Qed.
Print Assumptions C24_xorshift_next_rand.
Theorem C24_xorshift_next_randrange : forall m st minimum maximum,
  (-2^31 <= minimum)%Z -> (minimum < maximum < 2^31)%Z ->
  exists v, xs_next_randrange m st minimum maximum = (fst (xs_next m st), Ok v) /\ v < 2^32 /\
    signed32 v = (minimum + Z.of_N (snd (xs_next m st)) mod (maximum - minimum))%Z /\
    (minimum <= signed32 v < maximum)%Z.
Proof. exact xs_randrange_range. Qed.
Print Assumptions C24_xorshift_next_randrange.
Theorem C24_xorshift_next_alternate_rand : forall m st maximum, maximum <> 0 ->
  exists v, xs_next_randrange m st (-2^31) (2^31 - 1) = (fst (xs_next m st), Ok v) /\
    xs_next_alternate_rand m st maximum = (fst (xs_next m st), Ok (v mod maximum)) /\ v mod maximum < maximum.
Proof. exact xs_alternate_range. Qed.
Print Assumptions C24_xorshift_next_alternate_rand.
(** A range wider than 2^31 and a negative result. *)
Example C24_case :
  snd (xs_next_randrange NumPy [1; 2; 3; 4] (-2000000000) 2000000000) = Ok 2294969357 /\
  signed32 2294969357 = (-1999997939)%Z /\
  snd (xs_next_alternate_rand Numba [1; 2; 3; 4] 100) = Ok 9.
Proof. now vm_compute. Qed.

(** C25 is false: the float range does not exclude its maximum. When the low 23 bits
    of the output are zero the result is exactly maximum. *)
Theorem C25_xorshift_float_range_reaches_maximum_refuted : exists st, xs_words st /\ st <> xs_zero /\
  forall m, N.land (snd (xs_next m st)) 0x7FFFFF = 0 /\
    snd (xs_next_float_randrange m st (f32_of_N 3) (f32_of_N 12)) = f64_of_N 12 /\
    snd (xs_next_float_randrange m st (f32_of_N 0) (f32_of_N 2)) = f64_of_N 2.
Proof.
  exists (fst (xs_previous NumPy [1; 2; 3; 0x800000])).
  split; [|split; [now vm_compute|intros []; now vm_compute]].
  apply xs_next_previous. exists 1, 2, 3, 0x800000. now repeat split.
Qed.
Print Assumptions C25_xorshift_float_range_reaches_maximum_refuted.

(** The documented minimum fails too: between 100 and 101 the result can be below 100. *)
Theorem C25_xorshift_float_range_below_minimum_refuted : exists st, xs_words st /\ st <> xs_zero /\
  forall m, let v := snd (xs_next_float_randrange m st (f32_of_N 100) (f32_of_N 101)) in
    N.land (snd (xs_next m st)) 0x7FFFFF = 8388606 /\
    float32 (f32_of_N 100) /\ float32 (f32_of_N 101) /\ float64 v /\ (value v < value (f32_of_N 100))%Q.
Proof.
  exists (fst (xs_previous NumPy [1; 2; 3; 8388606])).
  split; [|split; [now vm_compute|intros []; now vm_compute]].
  apply xs_next_previous. exists 1, 2, 3, 8388606. now repeat split.
Qed.
Print Assumptions C25_xorshift_float_range_below_minimum_refuted.
(** What holds for all binary32 bounds: the result is finite and within
    2^-23 (|minimum| + |maximum|) + 2^-149 of the mixture of the bounds by k / (2^23 - 1),
    where k is the low 23 bits of the output. *)
Theorem C25_xorshift_float_mixture_partial : forall m st lo hi, float32 lo -> float32 hi ->
  let v := snd (xs_next_float_randrange m st lo hi) in
  let k := snd (xs_next m st) mod 2 ^ 23 in
  let t := (inject_Z (Z.of_N k) / inject_Z (2 ^ 23 - 1))%Q in
  float64 v /\
  (Qabs (value v - (t * value lo + (1 - t) * value hi)) <=
     (2 # 1) ^ (-23) * (Qabs (value lo) + Qabs (value hi)) + (2 # 1) ^ (-149))%Q.
Proof. exact float_mixture. Qed.
Print Assumptions C25_xorshift_float_mixture_partial.
(** And where the bounds are not too close for their size, the result is between them,
    and the maximum only if the low 23 bits of the output are zero. *)
Theorem C25_xorshift_float_range_partial : forall m st lo hi, float32 lo -> float32 hi ->
  (3 * Qabs (value lo) <= 4 * (value hi - value lo))%Q -> ((2 # 1) ^ (-100) <= value hi - value lo)%Q ->
  let v := snd (xs_next_float_randrange m st lo hi) in
  (value lo <= value v)%Q /\ (value v <= value hi)%Q /\
  ((value v == value hi)%Q <-> snd (xs_next m st) mod 2 ^ 23 = 0).
Proof. exact float_range. Qed.
Print Assumptions C25_xorshift_float_range_partial.
Example C25_case :
  float32 (f32_of_N 3) /\ float32 (f32_of_N 12) /\
  (3 * Qabs (value (f32_of_N 3)) <= 4 * (value (f32_of_N 12) - value (f32_of_N 3)))%Q /\
  ((2 # 1) ^ (-100) <= value (f32_of_N 12) - value (f32_of_N 3))%Q /\
  (value (snd (xs_next_float_randrange NumPy [1; 2; 3; 4]%N (f32_of_N 3) (f32_of_N 12))) == 51530110463 # 4294967296)%Q.
Proof. now vm_compute. Qed.

(** C26. *)
Theorem C26_xoroshiro_next_previous_inverse : forall st, xo_words st ->
  xo_previous (fst (xo_next st)) = (st, snd (xo_next st)) /\
  sm_previous (fst (sm_next st)) = (st, snd (sm_next st)) /\
  xo_words (fst (xo_previous st)) /\
  xo_next (fst (xo_previous st)) = (st, snd (xo_previous st)) /\
  xo_words (fst (sm_previous st)) /\
  sm_next (fst (sm_previous st)) = (st, snd (sm_previous st)).
Proof. exact xo_undo. Qed.
Print Assumptions C26_xoroshiro_next_previous_inverse.
Theorem C26_xoroshiro_objects_hold_words : forall m st, xo_reached m st \/ sm_reached m st -> xo_words st.
Proof. intros m st [H|H]; [exact (xo_reached_words m st H)|exact (sm_reached_words m st H)]. Qed.
Print Assumptions C26_xoroshiro_objects_hold_words.
Example C26_case : xo_words [0x123456789ABCDEF0; 0xFEDCBA9876543210] /\
  xo_reached Numba (fst (xo_calls Numba (xo_new [0; 5] 1 xo_seed1_default) [ONext; ORand 9 100; OPrev])) /\
  xo_previous (fst (xo_next [0x123456789ABCDEF0; 0xFEDCBA9876543210])) = ([0x123456789ABCDEF0; 0xFEDCBA9876543210], 0x1111111111111100).
Proof.
  split; [|split].
  - exists 0x123456789ABCDEF0, 0xFEDCBA9876543210. now repeat split.
  - exists [0; 5], 1, xo_seed1_default, [ONext; ORand 9 100; OPrev]. now repeat split.
  - now vm_compute.
Qed.

(** C27. *)
Theorem C27_bit_mask_is_least_cover : forall m maximum, 1 <= maximum < 2^32 ->
  (exists k, xo_bit_mask m maximum = 2^k - 1) /\ maximum - 1 <= xo_bit_mask m maximum /\
  (forall k, maximum - 1 <= 2^k - 1 -> xo_bit_mask m maximum <= 2^k - 1).
Proof. exact xo_bit_mask_least. Qed.
Print Assumptions C27_bit_mask_is_least_cover.
Example C27_case : map (xo_bit_mask Numba) [1; 2; 5; 100; 4294967295] = [0; 1; 7; 127; 4294967295].
Proof. now vm_compute. Qed.

(** C28. There is a first accepted draw, and the loop returns it: it ends from every
    state (no fuel bound below the number of rejected draws is enough, any from there
    on is). *)
Theorem C28_rejection_returns_first_accepted_draw : forall m st maximum, xo_words st -> 1 <= maximum < 2^32 ->
  exists i : nat,
    (forall j : nat, (j < i)%nat -> maximum <= xoroshiro_draw maximum st (N.of_nat j)) /\
    xoroshiro_draw maximum st (N.of_nat i) < maximum /\
    forall fuel, (i <= fuel)%nat ->
      xo_next_rand fuel m st maximum =
        Ok (N.iter (N.of_nat (S i)) xoroshiro_next st, xoroshiro_draw maximum st (N.of_nat i)).
Proof. exact xo_rand_spec. Qed.
Print Assumptions C28_rejection_returns_first_accepted_draw.
(** One draw is enough for a power of two. *)
Theorem C28_rejection_power_of_two : forall m st k fuel, xo_words st -> k < 32 ->
  xo_next_rand fuel m st (2^k) = Ok (xoroshiro_next st, xoroshiro_output st mod 2^k).
Proof. exact xo_rand_pow2. Qed.
Print Assumptions C28_rejection_power_of_two.
(** next_rand(0), outside the range, never ends. *)
Theorem C28_rejection_of_zero_never_ends : forall m st fuel,
  xo_next_rand fuel m st 0 = Raise OutOfFuel.
Proof. exact xo_rand_zero. Qed.
Print Assumptions C28_rejection_of_zero_never_ends.
(** The first draw is rejected. *)
Example C28_case :
  let st := [5; 60] in
  xo_words st /\ xoroshiro_draw 65 st 0 = 65 /\ xo_next_rand 5 NumPy st 65 = Ok (N.iter 2 xoroshiro_next st, 57).
Proof. split; [exists 5, 60; now repeat split|now vm_compute]. Qed.

(** C29. *)
Theorem C29_splitmix_seeding : forall junk seed, length junk = 2%nat -> seed < 2^64 ->
  sm_new junk seed = [splitmix64 seed 1; splitmix64 seed 2] /\ xo_words (sm_new junk seed) /\
  sm_new junk seed <> xo_zero.
Proof. exact sm_seed_ref. Qed.
Print Assumptions C29_splitmix_seeding.
(** Even the first word determines the seed. *)
Theorem C29_splitmix_injective : forall junk junk' seed seed', length junk = 2%nat -> length junk' = 2%nat ->
  seed < 2^64 -> seed' < 2^64 ->
  aget (sm_new junk seed) 0 = aget (sm_new junk' seed') 0 -> seed = seed'.
Proof. exact sm_seed_inj. Qed.
Print Assumptions C29_splitmix_injective.
Example C29_case : sm_new [1; 2] 0x12345678 = [4103302876398381935; 16133041902329894167] /\ sm_new [1; 2] 0 <> sm_new [1; 2] 1.
Proof. now vm_compute. Qed.

(** C30. advance(n) is n calls of next, and no two states merge. *)
Theorem C30_xorshift_advance : forall m st n,
  xs_advance m st (N.of_nat n) = fst (xs_calls m st (repeat XNext n)).
Proof. intros. symmetry. apply xs_calls_next. Qed.
Print Assumptions C30_xorshift_advance.
Theorem C30_xoroshiro_advance : forall m st n,
  xo_advance st (N.of_nat n) = fst (xo_calls m st (repeat ONext n)) /\
  sm_advance st (N.of_nat n) = fst (sm_calls m st (repeat SmNext n)).
Proof. intros. split; symmetry; [apply xo_calls_next|apply sm_calls_next]. Qed.
Print Assumptions C30_xoroshiro_advance.
Theorem C30_tinymt_advance : forall m st n,
  tiny_advance m st (N.of_nat n) = fst (tiny_calls m st (repeat TNext n)).
Proof. exact tiny_advance_next. Qed.
Print Assumptions C30_tinymt_advance.
Theorem C30_xorshift_bijective : forall m,
  (forall a b, xs_words a -> xs_words b -> fst (xs_next m a) = fst (xs_next m b) -> a = b) /\
  (forall b, xs_words b -> exists a, xs_words a /\ fst (xs_next m a) = b).
Proof.
  intros m. split; [exact (xs_injective m)|]. intros b H. exists (fst (xs_previous m b)).
  destruct (xs_next_previous m b H) as [A B]. split; [exact A|]. now rewrite B.
Qed.
Print Assumptions C30_xorshift_bijective.
Theorem C30_xoroshiro_bijective :
  (forall a b, xo_words a -> xo_words b -> fst (xo_next a) = fst (xo_next b) -> a = b) /\
  (forall b, xo_words b -> exists a, xo_words a /\ fst (xo_next a) = b) /\
  (forall a, fst (sm_next a) = fst (xo_next a)).
Proof.
  split; [exact xo_bijective|]. split; [|reflexivity]. intros b H. exists (fst (xo_previous b)).
  destruct (xo_undo b H) as (_ & _ & A & B & _). split; [exact A|]. now rewrite B.
Qed.
Print Assumptions C30_xoroshiro_bijective.
Example C30_case : xs_advance NumPy [1; 2; 3; 4] 3 = [4; 2061; 6175; 4] /\
  fst (xs_next Numba [1; 2; 3; 4]) <> fst (xs_next Numba [1; 2; 3; 5]).
Proof. now vm_compute. Qed.

(** C13. *)
Theorem C13_xorshift_re_init_forgets : forall m m' st junk a b c d, xs_reached m st -> length junk = 4%nat ->
  xs_re_init st a b c d = xs_new junk a b c d /\
  forall ops, snd (xs_calls m' (xs_re_init st a b c d) ops) = snd (xs_calls m' (xs_new junk a b c d) ops).
Proof. exact xs_re_init_fresh. Qed.
Print Assumptions C13_xorshift_re_init_forgets.
Theorem C13_xoroshiro_re_init_forgets : forall m m' st junk a b, xo_reached m st -> length junk = 2%nat ->
  xo_re_init st a b = xo_new junk a b /\
  forall ops, snd (xo_calls m' (xo_re_init st a b) ops) = snd (xo_calls m' (xo_new junk a b) ops).
Proof. exact xo_re_init_fresh. Qed.
Print Assumptions C13_xoroshiro_re_init_forgets.
Theorem C13_splitmix_re_init_forgets : forall m m' st junk a, sm_reached m st -> length junk = 2%nat ->
  sm_re_init st a = sm_new junk a /\
  forall ops, snd (sm_calls m' (sm_re_init st a) ops) = snd (sm_calls m' (sm_new junk a) ops).
Proof. exact sm_re_init_fresh. Qed.
Print Assumptions C13_splitmix_re_init_forgets.
(** An LCRNG object is one word, which re_init overwrites. *)
Theorem C13_lcrng_re_init_forgets : forall st seed,
  lcrng32_re_init st seed = lcrng32_new seed /\ lcrng64_re_init st seed = lcrng64_new seed.
Proof. intros. split; reflexivity. Qed.
Print Assumptions C13_lcrng_re_init_forgets.
Example C13_xorshift_case :
  xs_reached NumPy (fst (xs_calls NumPy (xs_new [0; 0; 0; 0] 1 2 3 4) [XNext; XPrev; XAdvance 5; XRange (-5) 10])) /\
  xo_reached NumPy (fst (xo_calls NumPy (xo_new [0; 0] 1 2) [ONext; OPrev; OAdvance 5; ORand 20 10])) /\
  sm_reached NumPy (fst (sm_calls NumPy (sm_new [0; 0] 1) [SmNext; SmPrev; SmAdvance 5; SmRand 10])).
Proof.
  split; [exists [0; 0; 0; 0], 1, 2, 3, 4, [XNext; XPrev; XAdvance 5; XRange (-5) 10]; now repeat split|].
  split; [exists [0; 0], 1, 2, [ONext; OPrev; OAdvance 5; ORand 20 10]; now repeat split|].
  exists [0; 0], 1, [SmNext; SmPrev; SmAdvance 5; SmRand 10]; now repeat split.
Qed.

(** C63. Every state but zero lies on one cycle of length 2^128 - 1. *)
Theorem C63_xorshift_full_period : forall m st, xs_words st -> st <> xs_zero ->
  xs_advance m st (2^128 - 1) = st /\
  (forall d, xs_advance m st d = st -> N.divide (2^128 - 1) d) /\
  (forall st', xs_words st' -> st' <> xs_zero -> exists i, i < 2^128 - 1 /\ xs_advance m st i = st').
Proof. exact xs_full_period. Qed.
Print Assumptions C63_xorshift_full_period.
Example C63_case : xs_words [1; 0; 0; 0] /\ [1; 0; 0; 0] <> xs_zero.
Proof. split; [exists 1, 0, 0, 0; now repeat split|discriminate]. Qed.

(** C64. *)
Theorem C64_xoroshiro_full_period : forall st, xo_words st -> st <> xo_zero ->
  xo_advance st (2^128 - 1) = st /\
  (forall d, xo_advance st d = st -> N.divide (2^128 - 1) d) /\
  (forall st', xo_words st' -> st' <> xo_zero -> exists i, i < 2^128 - 1 /\ xo_advance st i = st') /\
  (forall n, sm_advance st n = xo_advance st n).
Proof. exact xo_advance_period. Qed.
Print Assumptions C64_xoroshiro_full_period.
Example C64_case : xo_words [1; 0] /\ [1; 0] <> xo_zero.
Proof. split; [exists 1, 0; now repeat split|discriminate]. Qed.

(** C65. The 127-bit states of TinyMT but zero lie on one cycle of length 2^127 - 1. *)
Theorem C65_tinymt_full_period : forall m s, tiny_words s -> tiny127 s <> (0, 0, 0, 0) ->
  let after n := tiny_advance m (tiny_arr s) n in
  (exists t, tiny_words t /\ after (2^127 - 1) = tiny_arr t /\ tiny127 t = tiny127 s) /\
  (forall d t, tiny_words t -> after d = tiny_arr t -> tiny127 t = tiny127 s -> N.divide (2^127 - 1) d) /\
  (forall s', tiny_words s' -> tiny127 s' <> (0, 0, 0, 0) ->
     exists i t, i < 2^127 - 1 /\ tiny_words t /\ after i = tiny_arr t /\ tiny127 t = tiny127 s').
Proof. exact tiny_full_period. Qed.
Print Assumptions C65_tinymt_full_period.
Example C65_case : tiny_words (1, 0, 0, 0) /\ tiny127 (1, 0, 0, 0) <> (0, 0, 0, 0).
Proof. now vm_compute. Qed.

(** C66. Outputs follow the published recurrences in both modes. *)
Theorem C66_xorshift_follows_reference : forall m n a b c d, a < 2^32 -> b < 2^32 -> c < 2^32 -> d < 2^32 ->
  snd (xs_next m (xs_advance m [a; b; c; d] (N.of_nat n))) = xs_seq a b c d (n + 4).
Proof. exact xs_outputs. Qed.
Print Assumptions C66_xorshift_follows_reference.
Theorem C66_xoroshiro_follows_reference : forall st n, xo_words st ->
  xo_advance st n = N.iter n xoroshiro_next st /\
  snd (xo_next (xo_advance st n)) = xoroshiro_output (N.iter n xoroshiro_next st) /\
  sm_advance st n = N.iter n xoroshiro_next st /\
  snd (sm_next (sm_advance st n)) = xoroshiro_output (N.iter n xoroshiro_next st) / 2^32.
Proof. exact xo_outputs. Qed.
Print Assumptions C66_xoroshiro_follows_reference.
Example C66_case : map (xs_seq 1 2 3 4) [4; 5; 6; 7]%nat = [2061; 6175; 4; 8224] /\
  xoroshiro_output (N.iter 3 xoroshiro_next [1; 0x82A2B175229D6A5B]) = 13627992494589133133.
Proof. now vm_compute. Qed.
