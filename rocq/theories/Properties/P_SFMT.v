(** Properties C14 to C17 and the SFMT parts of C13, C18, C22. *)
From Coq Require Import NArith List.
From Verif Require Import Base.Word Model.SFMT Spec.SFMTSpec Spec.SFMTHistory Proofs.SFMTFinal.
Import ListNotations.
Open Scope N_scope.

(** C14. The k-th output is 64-bit word 312+k of the SFMT19937 sequence. *)
Theorem C14_sfmt_outputs_are_SFMT19937 : forall m W junk seed k,
  SFMT19937 seed W -> length junk = 624%nat ->
  sfmt_outputs_of m (sfmt_new junk seed) k = map (fun i => OVal (sfmt19937_output W i)) (seq 0 k).
Proof. exact sfmt_outputs. Qed.
Print Assumptions C14_sfmt_outputs_are_SFMT19937.

(** There is exactly one such sequence for each seed. *)
Theorem C14_SFMT19937_sequence_exists_unique : forall seed,
  exists W, SFMT19937 seed W /\ forall W', SFMT19937 seed W' -> forall k, W' k = W k.
Proof. exact sfmt_ex_unique. Qed.
Print Assumptions C14_SFMT19937_sequence_exists_unique.

(** Any mixture of next, advance, next_rand and re_init behaves as reading that
    sequence from a position. *)
Theorem C14_sfmt_histories : forall m W junk seed ops,
  (forall s, SFMT19937 s (W s)) -> length junk = 624%nat -> Forall (sfmt_op_valid m) ops ->
  snd (sfmt_calls m (sfmt_new junk seed) ops) = sfmt_abs_run W (seed, 0%nat) ops.
Proof. exact sfmt_history. Qed.
Print Assumptions C14_sfmt_histories.

(** The first two outputs for 0x12345678 are those of tests/test_mersenne_twister.py. *)
Example C14_case :
  sfmt_outputs_of Numba (sfmt_new (repeat 7 624) 0x12345678) 2
    = [OVal 4883196442416872734; OVal 15199411253426940632] /\
  Forall (sfmt_op_valid NumPy) [SNext; SAdvance 5000; SRand 100; SReInit 3; SRand (2^63)].
Proof. split; [now vm_compute|]. repeat (constructor; [now vm_compute|]); constructor. Qed.

(** C15. The two shuffles agree on every state, and the emitted loops end. *)
Theorem C15_sfmt_ir_shuffle_equals_python : forall st,
  length st = 624%nat -> Forall (fun w => w < 2^32) st ->
  sfmt_shuffle_ir st = Ok (sfmt_shuffle_py st).
Proof. exact sfmt_ir_equals_py. Qed.
Print Assumptions C15_sfmt_ir_shuffle_equals_python.

Example C15_case :
  let st := map (fun i => N.of_nat i * 2654435761 mod 2^32) (seq 0 624) in
  length st = 624%nat /\ forallb (fun w => w <? 2^32) st = true /\
  match sfmt_shuffle_ir st with Ok st' => negb (aget st' 623 =? aget st 623) | Raise _ => false end = true.
Proof. now vm_compute. Qed.

(** C16. advance(n) skips n 64-bit outputs, as long as 2n + index does not wrap. *)
Theorem C16_sfmt_advance_skips_outputs : forall m self n,
  sfmt_reached m self -> n < 2^32 -> (m = NumPy -> 2 * n + sfmt_index self < 2^32) ->
  exists self', sfmt_advance m self n = Ok self' /\
    forall k, sfmt_outputs_of m self' k = sfmt_outputs_of m (N.iter n (sfmt_next_state m) self) k.
Proof. exact sfmt_advance_skips. Qed.
Print Assumptions C16_sfmt_advance_skips_outputs.

(** Without numba the bound is exact: every reachable object and every larger n give
    wrong outputs. *)
Theorem C16_sfmt_advance_wrap_refuted : forall self n,
  sfmt_reached NumPy self -> n < 2^32 -> 2^32 <= 2 * n + sfmt_index self ->
  exists self' k, sfmt_advance NumPy self n = Ok self' /\
    sfmt_outputs_of NumPy self' k <> sfmt_outputs_of NumPy (N.iter n (sfmt_next_state NumPy) self) k.
Proof. exact sfmt_advance_wraps. Qed.
Print Assumptions C16_sfmt_advance_wrap_refuted.

(** Cases: n = 700 crosses two blocks; n = 2^31 wraps on a new object. *)
Example C16_case :
  (let self := sfmt_new (repeat 0 624) 0x12345678 in
   sfmt_reached NumPy self /\ 2 * 700 + sfmt_index self < 2^32 /\ 2^32 <= 2 * 2^31 + sfmt_index self) /\
  match sfmt_advance NumPy (sfmt_new (repeat 0 624) 0x12345678) 700 with
  | Ok s => sfmt_outputs_of NumPy s 2 =
            sfmt_outputs_of NumPy (N.iter 700 (sfmt_next_state NumPy) (sfmt_new (repeat 0 624) 0x12345678)) 2
  | Raise _ => False end.
Proof.
  split; [|now vm_compute]. split; [|now vm_compute].
  exists (repeat 0 624), 0x12345678, []. now vm_compute.
Qed.

(** C17. After initialisation the first 128-bit word has odd inner product with the
    parity vector; compared with Knuth's words only bit 0 of word 0 may differ, and
    nothing differs if the condition held already. *)
Theorem C17_sfmt_certified : forall junk seed, length junk = 624%nat ->
  exists v, knuth_init seed v /\
  let st := sfmt_state (sfmt_new junk seed) in
  odd_ones 128 (N.land (word128 (aget st) 0) SFMT_PARITY) = true /\
  (aget st 0 = v 0%nat \/ aget st 0 = N.lxor (v 0%nat) 1) /\
  (odd_ones 128 (N.land (word128 v 0) SFMT_PARITY) = true -> aget st 0 = v 0%nat) /\
  forall j, (0 < j < 624)%nat -> aget st j = v j.
Proof. exact sfmt_certified. Qed.
Print Assumptions C17_sfmt_certified.

(** Both situations occur: seeds 2 and 3 are changed, the others kept. *)
Example C17_case :
  map (fun s => aget (sfmt_state (sfmt_new (repeat 0 624) s)) 0) [0; 1; 2; 3; 4; 5] = [0; 1; 3; 2; 4; 5].
Proof. now vm_compute. Qed.

(** C13 (SFMT). *)
Theorem C13_sfmt_re_init_forgets : forall m self junk seed,
  sfmt_reached m self -> length junk = 624%nat ->
  sfmt_re_init self seed = sfmt_new junk seed /\
  forall m' ops, snd (sfmt_calls m' (sfmt_re_init self seed) ops) = snd (sfmt_calls m' (sfmt_new junk seed) ops).
Proof. exact sfmt_re_init_same_future. Qed.
Print Assumptions C13_sfmt_re_init_forgets.

Example C13_sfmt_case :
  sfmt_reached Numba (fst (sfmt_calls Numba (sfmt_new (repeat 0 624) 1) [SNext; SAdvance 700; SShuffle; SNext])) /\
  sfmt_re_init (fst (sfmt_calls Numba (sfmt_new (repeat 0 624) 1) [SNext; SAdvance 700; SShuffle; SNext])) 99
  = sfmt_new (repeat 5 624) 99.
Proof.
  split; [|now vm_compute].
  exists (repeat 0 624), 1, [SNext; SAdvance 700; SShuffle; SNext]. now split.
Qed.

(** C18 (SFMT). Reachable objects have 624 words of 32 bits and an even index of at
    most 624. *)
Theorem C18_sfmt_in_bounds : forall m self, sfmt_reached m self ->
  length (sfmt_state self) = 624%nat /\ sfmt_index self <= 624 /\ N.even (sfmt_index self) = true /\
  Forall (fun w => w < 2^32) (sfmt_state self) /\
  (exists self', sfmt_shuffle m self = Ok self') /\
  (exists r, sfmt_next m self = Ok r).
Proof. exact sfmt_in_bounds. Qed.
Print Assumptions C18_sfmt_in_bounds.

(** Neither shuffle nor next reads or writes memory behind the array: whatever words
    lie there, they stay as they are and the result is the same. *)
Theorem C18_sfmt_touches_only_its_array : forall m self extra,
  sfmt_reached m self -> Forall (fun w => w < 2^32) extra ->
  let wide s := mkSFMT (sfmt_state s ++ extra) (sfmt_index s) in
  sfmt_shuffle m (wide self) = rmap wide (sfmt_shuffle m self) /\
  sfmt_next m (wide self) = rmap (fun '(s, r) => (wide s, r)) (sfmt_next m self).
Proof. exact sfmt_in_bounds_frame. Qed.
Print Assumptions C18_sfmt_touches_only_its_array.

Example C18_sfmt_case :
  sfmt_reached NumPy (fst (sfmt_calls NumPy (sfmt_new (repeat 0 624) 1) [SAdvance 311; SNext; SNext])) /\
  sfmt_index (fst (sfmt_calls NumPy (sfmt_new (repeat 0 624) 1) [SAdvance 311; SNext; SNext])) = 2.
Proof. split; [exists (repeat 0 624), 1, [SAdvance 311; SNext; SNext]; now split|now vm_compute]. Qed.

(** C22 (SFMT). *)
Theorem C22_sfmt_next_rand_in_range : forall m self maximum,
  sfmt_reached m self -> 1 <= maximum < 2^64 ->
  exists self' r, sfmt_next m self = Ok (self', r) /\
    sfmt_next_rand m self maximum = Ok (self', Ok (r mod maximum)) /\ r mod maximum < maximum.
Proof. exact sfmt_next_rand_range. Qed.
Print Assumptions C22_sfmt_next_rand_in_range.

Example C22_sfmt_case :
  sfmt_reached Numba (sfmt_new (repeat 0 624) 0x12345678) /\
  rmap snd (sfmt_next_rand Numba (sfmt_new (repeat 0 624) 0x12345678) 100) = Ok (Ok 34).
Proof. split; [exists (repeat 0 624), 0x12345678, []; now vm_compute|]. now vm_compute. Qed.
