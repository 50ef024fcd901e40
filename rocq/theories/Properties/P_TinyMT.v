(** Properties C19 to C21 and the TinyMT parts of C13, C22. *)
From Coq Require Import NArith List.
From Verif Require Import Base.Word Model.TinyMT Spec.TinySpec Proofs.TinyProofs.
Import ListNotations.
Open Scope N_scope.

(** C19. Output n after initialisation is that of tinymt32; under numba its low 32
    bits are (see C20 for the rest). *)
Theorem C19_tinymt_follows_reference : forall m junk seed n, length junk = 4%nat ->
  let st := tiny_advance m (tiny_new m junk seed) n in
  w32 (snd (tiny_next m st)) = tinymt32_output seed n /\
  (m = NumPy -> snd (tiny_next m st) = tinymt32_output seed n).
Proof. exact tiny_output. Qed.
Print Assumptions C19_tinymt_follows_reference.

(** Any history of calls without numba behaves as the reference. *)
Theorem C19_tinymt_histories : forall junk seed ops, length junk = 4%nat ->
  Forall tiny_op_valid ops ->
  snd (tiny_calls NumPy (tiny_new NumPy junk seed) ops) = tiny_abs_run (tinymt32_init seed) ops.
Proof. exact tiny_history. Qed.
Print Assumptions C19_tinymt_histories.

(** The vector of tests/test_mersenne_twister.py. *)
Example C19_case :
  map (fun n => snd (tiny_next Numba (tiny_advance Numba (tiny_new Numba [9; 8; 7; 6] 0x12345678) n))) [0; 1; 2; 3; 4]
    = [2481148692; 2185716838; 3625480341; 3369169125; 3389594172] /\
  map (tinymt32_output 0x12345678) [0; 1; 2; 3; 4] = [2481148692; 2185716838; 3625480341; 3369169125; 3389594172] /\
  Forall tiny_op_valid [TNext; TAdvance 3; TRand 100; TReInit 4; TRandMod 7; TTemper; TShuffle].
Proof. split; [now vm_compute|]. split; [now vm_compute|]. repeat (constructor; [now vm_compute|]); constructor. Qed.

(** C20. Both modes have the same states, and without numba outputs fit in 32 bits;
    under numba the carry of the sum in temper stays in the output as bit 32. *)
Theorem C20_tinymt_output_width : forall m st, tiny_reached m st ->
  tiny_shuffle Numba st = tiny_shuffle NumPy st /\
  tiny_temper NumPy st < 2^32 /\
  tiny_temper Numba st = tiny_temper NumPy st + 2^32 * ((aget st 0 + aget st 2 / 2^8) / 2^32) /\
  tiny_temper Numba st < 2^33.
Proof. exact tiny_modes. Qed.
Print Assumptions C20_tinymt_output_width.

(** So the claim is false under numba: with seed 775 the first output has 33 bits. *)
Theorem C20_tinymt_numba_output_exceeds_32_bits_refuted : exists seed, forall junk, length junk = 4%nat ->
  2^32 <= snd (tiny_next Numba (tiny_new Numba junk seed)) /\
  snd (tiny_next NumPy (tiny_new NumPy junk seed)) <> snd (tiny_next Numba (tiny_new Numba junk seed)).
Proof.
  exists 775. intros junk Hl. unfold tiny_new. rewrite !re_init_ref by assumption. now vm_compute.
Qed.
Print Assumptions C20_tinymt_numba_output_exceeds_32_bits_refuted.

Example C20_case : tiny_reached Numba (fst (tiny_calls Numba (tiny_new Numba [0; 0; 0; 0] 775) [TNext; TRand 5])).
Proof. exists [0; 0; 0; 0], 775, [TNext; TRand 5]; now vm_compute. Qed.

(** C21. For every seed and every number of steps the 127-bit state is not zero. *)
Theorem C21_tinymt_never_zero : forall m junk seed n, length junk = 4%nat ->
  exists s, tiny_advance m (tiny_new m junk seed) n = tiny_arr s /\ tiny_words s /\ tiny127 s <> (0, 0, 0, 0).
Proof. exact tiny_nonzero. Qed.
Print Assumptions C21_tinymt_never_zero.

(** shuffle is a bijection on 127-bit states: injective ... *)
Theorem C21_tinymt_shuffle_injective : forall m s s', tiny_words s -> tiny_words s' ->
  forall t t', tiny_shuffle m (tiny_arr s) = tiny_arr t -> tiny_shuffle m (tiny_arr s') = tiny_arr t' ->
  (tiny127 t = tiny127 t' <-> tiny127 s = tiny127 s').
Proof. exact tiny_step_inj. Qed.
Print Assumptions C21_tinymt_shuffle_injective.

(** ... and surjective. *)
Theorem C21_tinymt_shuffle_surjective : forall m t, tiny_words t ->
  exists s t', tiny_words s /\ tiny_shuffle m (tiny_arr s) = tiny_arr t' /\ tiny127 t' = tiny127 t.
Proof. exact tiny_step_surj. Qed.
Print Assumptions C21_tinymt_shuffle_surjective.

(** The certification branch that stores 'TINY' is never taken with these parameters: the
    words are never all zero, and a new object is the one made without certification. *)
Theorem C21_tinymt_certification_never_fires : forall m junk seed, length junk = 4%nat ->
  tiny127 (tinymt32_words seed) <> (0, 0, 0, 0) /\
  tiny_new m junk seed = tiny_arr (N.iter 8 tinymt32_next (tinymt32_words seed)).
Proof. exact tiny_uncertified. Qed.
Print Assumptions C21_tinymt_certification_never_fires.

Example C21_case :
  tiny_words (1, 2, 3, 4) /\ tiny_words (0x80000001, 2, 3, 4) /\
  tiny_shuffle Numba (tiny_arr (1, 2, 3, 4)) = tiny_shuffle Numba (tiny_arr (0x80000001, 2, 3, 4)) /\
  tiny_shuffle Numba (tiny_arr (1, 2, 3, 4)) <> tiny_shuffle Numba (tiny_arr (2, 2, 3, 4)).
Proof. repeat split. now vm_compute. Qed.

(** C13 (TinyMT). *)
Theorem C13_tinymt_re_init_forgets : forall m m' st junk seed,
  tiny_reached m st -> length junk = 4%nat ->
  tiny_re_init m' st seed = tiny_new m' junk seed /\
  forall ops, snd (tiny_calls m' (tiny_re_init m' st seed) ops) = snd (tiny_calls m' (tiny_new m' junk seed) ops).
Proof. exact tiny_re_init_fresh. Qed.
Print Assumptions C13_tinymt_re_init_forgets.

Example C13_tinymt_case :
  tiny_reached NumPy (fst (tiny_calls NumPy (tiny_new NumPy [0; 0; 0; 0] 1) [TNext; TAdvance 5; TRandMod 3])).
Proof. exists [0; 0; 0; 0], 1, [TNext; TAdvance 5; TRandMod 3]; now vm_compute. Qed.

(** C22 (TinyMT), without numba. *)
Theorem C22_tinymt_rands_in_range : forall st maximum, tiny_reached NumPy st -> 1 <= maximum < 2^32 ->
  snd (tiny_next_rand NumPy st maximum) = snd (tiny_next NumPy st) * maximum / 2^32 /\
  snd (tiny_next_rand NumPy st maximum) < maximum /\
  fst (tiny_next_rand NumPy st maximum) = fst (tiny_next NumPy st) /\
  tiny_next_rand_mod NumPy st maximum = (fst (tiny_next NumPy st), Ok (snd (tiny_next NumPy st) mod maximum)) /\
  snd (tiny_next NumPy st) mod maximum < maximum.
Proof. exact tiny_rand_numpy. Qed.
Print Assumptions C22_tinymt_rands_in_range.

(** Under numba: in range while next() fits in 32 bits; otherwise next_rand is at
    least maximum. *)
Theorem C22_tinymt_numba_rands : forall st maximum, tiny_reached Numba st -> 1 <= maximum < 2^32 ->
  (snd (tiny_next Numba st) < 2^32 ->
     snd (tiny_next_rand Numba st maximum) = snd (tiny_next Numba st) * maximum / 2^32 /\
     snd (tiny_next_rand Numba st maximum) < maximum) /\
  (2^32 <= snd (tiny_next Numba st) -> maximum < 2^31 ->
     maximum <= snd (tiny_next_rand Numba st maximum)) /\
  tiny_next_rand_mod Numba st maximum = (fst (tiny_next Numba st), Ok (snd (tiny_next Numba st) mod maximum)) /\
  snd (tiny_next Numba st) mod maximum < maximum.
Proof. exact tiny_rand_numba. Qed.
Print Assumptions C22_tinymt_numba_rands.

(** So the claim is false under numba: next_rand(100) returns 107. *)
Theorem C22_tinymt_numba_rand_out_of_range_refuted : exists st, tiny_reached Numba st /\
  snd (tiny_next_rand Numba st 100) = 107.
Proof.
  exists (tiny_new Numba [0; 0; 0; 0] 775). split; [|now vm_compute].
  exists [0; 0; 0; 0], 775, []; now vm_compute.
Qed.
Print Assumptions C22_tinymt_numba_rand_out_of_range_refuted.

Example C22_tinymt_case :
  let st := tiny_new NumPy [0; 0; 0; 0] 0x12345678 in
  tiny_reached NumPy st /\ snd (tiny_next_rand NumPy st 100) = 57 /\ snd (tiny_next_rand_mod NumPy st 100) = Ok 92.
Proof. split; [exists [0; 0; 0; 0], 0x12345678, []; now vm_compute|now vm_compute]. Qed.
