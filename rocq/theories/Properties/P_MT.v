(** Properties C11, C12 and the Mersenne Twister parts of C13, C18, C22. *)
From Coq Require Import NArith List.
From Verif Require Import Base.Word Model.MT Spec.MTSpec Spec.MTHistory Proofs.MTProofs Proofs.MTFinal.
Import ListNotations.
Open Scope N_scope.

(** C11. The k-th output is the tempered word 624+k of the MT19937 sequence. *)
Theorem C11_mt_outputs_are_MT19937 : forall m x junk seed k,
  MT19937 seed x -> length junk = 624%nat ->
  mt_outputs_of m (mt_new junk seed) k = map (fun i => OVal (mt19937_output x i)) (seq 0 k).
Proof. exact mt_outputs. Qed.
Print Assumptions C11_mt_outputs_are_MT19937.

(** There is exactly one such sequence for each seed, so the theorem is not vacuous. *)
Theorem C11_MT19937_sequence_exists_unique : forall seed,
  exists x, MT19937 seed x /\ forall y, MT19937 seed y -> forall i, y i = x i.
Proof. exact mt19937_ex_unique. Qed.
Print Assumptions C11_MT19937_sequence_exists_unique.

(** Any mixture of next, advance, next_rand, next_rand_mod and re_init behaves as
    reading that sequence from a position. *)
Theorem C11_mt_histories : forall m x junk seed ops,
  (forall s, MT19937 s (x s)) -> length junk = 624%nat -> Forall (mt_op_valid m) ops ->
  snd (mt_calls m (mt_new junk seed) ops) = mt_abs_run x (seed, 0%nat) ops.
Proof. exact mt_history. Qed.
Print Assumptions C11_mt_histories.

Example C11_case :
  mt_outputs_of NumPy (mt_new (repeat 7 624) 0x12345678) 3 = [OVal 3331822403; OVal 157471482; OVal 2805605540] /\
  Forall (mt_op_valid NumPy) [MNext; MAdvance 5000; MRand 100; MReInit 3; MRandMod 25].
Proof. split; [now vm_compute|]. repeat (constructor; [now vm_compute|]); constructor. Qed.

(** C12. advance(n) skips n outputs, as long as n + index does not wrap. *)
Theorem C12_mt_advance_skips_outputs : forall m self n,
  mt_reached m self -> n < 2^32 -> (m = NumPy -> n + mt_index self < 2^32) ->
  exists self', mt_advance m self n = Ok self' /\
    forall k, mt_outputs_of m self' k = mt_outputs_of m (N.iter n next_state self) k.
Proof. exact mt_advance_skips. Qed.
Print Assumptions C12_mt_advance_skips_outputs.

(** Without numba the bound is exact: from every reachable object, an n with
    n + index >= 2^32 gives wrong outputs. *)
Theorem C12_mt_advance_wrap_refuted : forall self n,
  mt_reached NumPy self -> n < 2^32 -> 2^32 <= n + mt_index self ->
  exists self' k, mt_advance NumPy self n = Ok self' /\
    mt_outputs_of NumPy self' k <> mt_outputs_of NumPy (N.iter n next_state self) k.
Proof. exact mt_advance_wraps. Qed.
Print Assumptions C12_mt_advance_wrap_refuted.

(** Cases: a new object and n = 1000 (one block crossed, outputs as from 1000 next
    calls); a new object has index 624, so n = 2^32 - 1 wraps. *)
Example C12_case :
  (let self := mt_new (repeat 0 624) 0x12345678 in
   mt_reached NumPy self /\ 1000 + mt_index self < 2^32 /\
   2^32 <= (2^32 - 1) + mt_index self) /\
  match mt_advance NumPy (mt_new (repeat 0 624) 0x12345678) 1000 with
  | Ok s => snd (mt_next s)
            = snd (mt_next (N.iter 1000 next_state (mt_new (repeat 0 624) 0x12345678)))
  | Raise _ => False end.
Proof.
  split; [|now vm_compute]. split; [|now vm_compute].
  exists (repeat 0 624), 0x12345678, []. now vm_compute.
Qed.

(** C13 (Mersenne Twister). Whatever happened before, re_init gives the object that
    the constructor gives, hence the same future. *)
Theorem C13_mt_re_init_forgets : forall m self junk seed,
  mt_reached m self -> length junk = 624%nat ->
  mt_re_init self seed = mt_new junk seed /\
  forall m' ops, snd (mt_calls m' (mt_re_init self seed) ops) = snd (mt_calls m' (mt_new junk seed) ops).
Proof. exact mt_re_init_same_future. Qed.
Print Assumptions C13_mt_re_init_forgets.

Example C13_mt_case :
  mt_reached Numba (fst (mt_calls Numba (mt_new (repeat 0 624) 1) [MNext; MAdvance 700; MShuffle; MNext])) /\
  mt_re_init (fst (mt_calls Numba (mt_new (repeat 0 624) 1) [MNext; MAdvance 700; MShuffle; MNext])) 99
  = mt_new (repeat 5 624) 99.
Proof.
  split; [|now vm_compute].
  exists (repeat 0 624), 1, [MNext; MAdvance 700; MShuffle; MNext]. now split.
Qed.

(** C18 (Mersenne Twister). Reachable objects: 624 words of 32 bits, index at most
    624, and neither shuffle nor next touches an element outside the array: the
    bounds-checked versions succeed and give the same result. *)
Theorem C18_mt_in_bounds : forall m self, mt_reached m self ->
  length (mt_state self) = 624%nat /\ mt_index self <= 624 /\
  Forall (fun w => w < 2^32) (mt_state self) /\
  mt_shuffle_r self = Ok (mt_shuffle self) /\
  mt_next_r self = Ok (mt_next self).
Proof. exact mt_in_bounds. Qed.
Print Assumptions C18_mt_in_bounds.

Example C18_mt_case :
  mt_reached NumPy (fst (mt_calls NumPy (mt_new (repeat 0 624) 1) [MAdvance 623; MNext; MNext])).
Proof. exists (repeat 0 624), 1, [MAdvance 623; MNext; MNext]. now split. Qed.

(** C22 (Mersenne Twister). *)
Theorem C22_mt_next_rand_in_range : forall self maximum,
  mt_reached NumPy self \/ mt_reached Numba self -> 1 <= maximum <= 2^32 ->
  mt_next_rand self maximum = (fst (mt_next self), snd (mt_next self) * maximum / 2^32) /\
  snd (mt_next_rand self maximum) < maximum.
Proof. exact mt_next_rand_range. Qed.
Print Assumptions C22_mt_next_rand_in_range.

Theorem C22_mt_next_rand_mod_in_range : forall m self maximum, 1 <= maximum < 2^32 ->
  mt_next_rand_mod m self maximum
    = (fst (mt_next self), Ok (snd (mt_next self) mod maximum)) /\
  snd (mt_next self) mod maximum < maximum.
Proof. exact mt_next_rand_mod_range. Qed.
Print Assumptions C22_mt_next_rand_mod_in_range.

Example C22_mt_case :
  mt_reached NumPy (mt_new (repeat 0 624) 0x12345678) /\
  snd (mt_next_rand (mt_new (repeat 0 624) 0x12345678) 100) = 77 /\
  snd (mt_next_rand_mod NumPy (mt_new (repeat 0 624) 0x12345678) 25) = Ok 3.
Proof. split; [exists (repeat 0 624), 0x12345678, []; now vm_compute|]. now vm_compute. Qed.
