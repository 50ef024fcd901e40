(** Properties C31 to C33. *)
From Coq Require Import NArith ZArith List.
From Verif Require Import Base.Word Model.RNGList Model.FNV Spec.RNGListSpec Spec.FNVSpec.
From Verif Require Import Proofs.RNGListProofs Proofs.FNVProofs.
Import ListNotations.
Open Scope N_scope.

(** C31. For any generator, any conversion on storing and any sequence of calls, the
    results are those of a window that slides along the generator's outputs. Under
    numba the head and pointer are 16-bit fields, so the size is at most 65536. *)
Theorem C31_rnglist_is_sliding_window : forall S (m : mode) cast (nxt : S -> S * N) (s0 : S) k junk ops,
  N.of_nat (length junk) = 2^k -> (m = Numba -> 2^k <= 2^16) ->
  snd (rl_calls m cast nxt (2^k) (rl_new cast nxt (2^k) junk s0) ops)
    = window_run (fun i => cast (stream nxt s0 i)) (2^k) (0, 0) ops.
Proof. exact @rl_history. Qed.
Print Assumptions C31_rnglist_is_sliding_window.

(** Beyond that bound it fails: advance(65536) leaves the cursor at the start. *)
Theorem C31_rnglist_numba_large_size_refuted : forall S cast (nxt : S -> S * N) (s0 : S) k junk,
  16 < k -> N.of_nat (length junk) = 2^k ->
  snd (rl_calls Numba cast nxt (2^k) (rl_new cast nxt (2^k) junk s0) [RAdvance 65536; RGet])
    = [ONone; OVal (cast (stream nxt s0 0))].
Proof. exact @rl_numba_large. Qed.
Print Assumptions C31_rnglist_numba_large_size_refuted.

(** A window of eight on a counter and a wrap of the cursor; both runs agree. *)
Example C31_case :
  let nxt s := (s + 1, 100 + s) in
  let ops := [RGet; RAdvanceState; RGet; RAdvance 6; RGet; RGet; RAdvanceStates 3; RGet; RReInit; RGet] in
  snd (rl_calls Numba w32 nxt (2^3) (rl_new w32 nxt (2^3) [9;9;9;9;9;9;9;9] 0) ops) =
    [OVal 100; ONone; OVal 101; ONone; OVal 108; OVal 101; ONone; OVal 104; ONone; OVal 112] /\
  window_run (fun i => w32 (stream nxt 0 i)) (2^3) (0, 0) ops =
    [OVal 100; ONone; OVal 101; ONone; OVal 108; OVal 101; ONone; OVal 104; ONone; OVal 112].
Proof. now vm_compute. Qed.

(** C32. *)
Theorem C32_rnglist_sizes : forall size, size_accepted size = true <-> exists k : N, size = (2 ^ Z.of_N k)%Z.
Proof. exact size_accepted_iff. Qed.
Print Assumptions C32_rnglist_sizes.
Example C32_case : map size_accepted [0; 1; 2; 3; 64; 96; -8; 2^20]%Z = [false; true; true; false; true; false; false; true].
Proof. now vm_compute. Qed.

(** C33. *)
Theorem C33_fnv_recurrences : is_fnv1 fnv1_64 /\ is_fnv1a fnv1a_64.
Proof. exact (conj fnv1_is fnv1a_is). Qed.
Print Assumptions C33_fnv_recurrences.
(** Incremental, and a common suffix creates no collision. Characters are code points,
    far below 2^64. *)
Theorem C33_fnv_incremental : forall s s' t,
  Forall (fun c => c < 2^64) s -> Forall (fun c => c < 2^64) s' -> Forall (fun c => c < 2^64) t ->
  (fnv1_64 (s ++ t) = fnv1_64 (s' ++ t) <-> fnv1_64 s = fnv1_64 s') /\
  (fnv1a_64 (s ++ t) = fnv1a_64 (s' ++ t) <-> fnv1a_64 s = fnv1a_64 s').
Proof. exact fnv_suffix. Qed.
Print Assumptions C33_fnv_incremental.
Theorem C33_fnv_one_character : forall s t c d,
  Forall (fun c => c < 2^64) s -> Forall (fun c => c < 2^64) t -> c < 2^64 -> d < 2^64 -> c <> d ->
  fnv1_64 (s ++ c :: t) <> fnv1_64 (s ++ d :: t) /\ fnv1a_64 (s ++ c :: t) <> fnv1a_64 (s ++ d :: t).
Proof. exact fnv_one_char. Qed.
Print Assumptions C33_fnv_one_character.
Theorem C33_fnv_range : forall s, Forall (fun c => c < 2^64) s -> fnv1_64 s < 2^64 /\ fnv1a_64 s < 2^64.
Proof. intros s H. split; [now apply fnv1_lt|now apply fnv1a_lt]. Qed.
Print Assumptions C33_fnv_range.
(** "ab" and "ac". *)
Example C33_case : fnv1a_64 [97; 98] = 1324414565459575178 /\ fnv1a_64 [97; 98] <> fnv1a_64 [97; 99].
Proof. now vm_compute. Qed.
