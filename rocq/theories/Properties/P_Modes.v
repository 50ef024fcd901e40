(** Property C84: with and without numba a generator returns the same values.
    TinyMT is the exception (C20); the domains below are those of the arguments that
    mean the same thing in both modes. *)
From Coq Require Import NArith ZArith List SpecFloat.
From Verif Require Import Base.Word Model.Float Model.Util Model.Xorshift Model.Xoroshiro Model.MT Model.SFMT Model.RNGList Model.Lcrng32.
From Verif Require Import Spec.XorshiftSpec Spec.ModesSpec Proofs.ModesProofs.
Import ListNotations.
Open Scope N_scope.

(** Xorshift128: any sequence of calls on any object leaves the same state and returns
    the same values; so does the float range. *)
Theorem C84_xorshift : forall st ops, xs_words st -> Forall xs_arguments ops ->
  xs_calls NumPy st ops = xs_calls Numba st ops /\
  forall minimum maximum, xs_next_float_randrange NumPy st minimum maximum = xs_next_float_randrange Numba st minimum maximum.
Proof. intros st ops H A. split; [now apply xs_calls_modes|]. intros. now apply xs_float_modes. Qed.
Print Assumptions C84_xorshift.
(** Both Xoroshiro128+ classes. *)
Theorem C84_xoroshiro : forall st ops, Forall xo_arguments ops -> xo_calls NumPy st ops = xo_calls Numba st ops.
Proof. intros st ops. apply xo_calls_modes. Qed.
Print Assumptions C84_xoroshiro.
Theorem C84_xoroshiro_sm : forall st ops, Forall sm_arguments ops -> sm_calls NumPy st ops = sm_calls Numba st ops.
Proof. intros st ops. apply sm_calls_modes. Qed.
Print Assumptions C84_xoroshiro_sm.
(** The two large twisters, whatever memory np.empty handed out. The SIMD one runs
    different code in the two modes: Python loops, and LLVM IR. *)
Theorem C84_mersenne_twister : forall junk seed ops, length junk = 624%nat -> Forall mt_arguments ops ->
  snd (mt_calls NumPy (mt_new junk seed) ops) = snd (mt_calls Numba (mt_new junk seed) ops).
Proof. exact mt_calls_modes. Qed.
Print Assumptions C84_mersenne_twister.
Theorem C84_simd_twister : forall junk seed ops, length junk = 624%nat -> Forall sfmt_arguments ops ->
  snd (sfmt_calls NumPy (sfmt_new junk seed) ops) = snd (sfmt_calls Numba (sfmt_new junk seed) ops).
Proof. exact sfmt_calls_modes. Qed.
Print Assumptions C84_simd_twister.
(** LCRNG32 classes, both distributions. The remaining methods, and all those of LCRNG64
    classes, have one model for the two modes. *)
Theorem C84_lcrng32 : forall d add mult seed maximum,
  maximum mod 2^16 <> 0 -> (d = D32_RECIPROCAL_DIVISION -> maximum mod 2^16 <> 1) ->
  lcrng32_next_rand NumPy d add mult seed maximum = lcrng32_next_rand Numba d add mult seed maximum /\
  match lcrng32_const_rand NumPy d add mult maximum, lcrng32_const_rand Numba d add mult maximum with
  | Ok f, Ok g => forall seed, f seed = g seed
  | Raise e, Raise e' => e = e'
  | _, _ => False
  end.
Proof. exact lcrng32_rand_modes. Qed.
Print Assumptions C84_lcrng32.
(** Lists of outputs up to 2^16 entries. *)
Theorem C84_rng_list : forall (S : Type) cast (nxt : S -> S * N) s0 k junk ops,
  k <= 16 -> N.of_nat (length junk) = 2^k ->
  snd (rl_calls NumPy cast nxt (2^k) (rl_new cast nxt (2^k) junk s0) ops) =
  snd (rl_calls Numba cast nxt (2^k) (rl_new cast nxt (2^k) junk s0) ops).
Proof. exact rl_calls_modes. Qed.
Print Assumptions C84_rng_list.
(** The functions of util.py. *)
Theorem C84_util : forall v c num, num < 2^32 ->
  (c <= 32 -> rotate_left_u32 NumPy v c = rotate_left_u32 Numba v c /\
              rotate_right_u32 NumPy v c = rotate_right_u32 Numba v c) /\
  (0 < c < 64 -> rotate_left_u64 NumPy v c = rotate_left_u64 Numba v c /\
                 rotate_right_u64 NumPy v c = rotate_right_u64 Numba v c) /\
  hex_32 NumPy num = hex_32 Numba num.
Proof.
  intros v c num H. split; [|split; [|now apply hex_32_modes]]; intros Hc; split; apply rotate_modes; auto;
    try (intros E; discriminate E); try (intros; assumption); apply N.lt_le_incl, Hc.
Qed.
Print Assumptions C84_util.
(** Outside the domains the modes do differ: a maximum that is zero in its type gives
    0 without numba and ZeroDivisionError under it. *)
Theorem C84_zero_maximum : forall st seed add mult maximum, xs_words st ->
  (maximum mod 2^32 = 0 ->
    snd (xs_next_rand NumPy st maximum) = Ok 0 /\ snd (xs_next_rand Numba st maximum) = Raise ZeroDivisionError) /\
  (maximum mod 2^16 = 0 ->
    snd (lcrng32_next_rand NumPy D32_MODULO add mult seed maximum) = Ok 0 /\
    snd (lcrng32_next_rand Numba D32_MODULO add mult seed maximum) = Raise ZeroDivisionError).
Proof. exact zero_maximum_modes. Qed.
Print Assumptions C84_zero_maximum.
Example C84_case :
  xs_words [0x12345678; 0x9ABCDEF0; 0xFFFFFFFF; 1] /\
  Forall xs_arguments [XNext; XPrev; XRange (-5) 6; XRand 3; XAlt 100; XAdvance 4000] /\
  Forall mt_arguments [MNext; MAdvance 5000; MRand 25; MRandMod 100; MReInit 7] /\
  Forall sfmt_arguments [SNext; SAdvance 5000; SRand 100] /\
  snd (xs_calls Numba [0x12345678; 0x9ABCDEF0; 0xFFFFFFFF; 1] [XNext; XRange (-5) 6; XRand 3; XAlt 100]) =
  snd (xs_calls NumPy [0x12345678; 0x9ABCDEF0; 0xFFFFFFFF; 1] [XNext; XRange (-5) 6; XRand 3; XAlt 100]) /\
  lcrng32_next_rand Numba D32_RECIPROCAL_DIVISION 0x6073 0x41C64E6D 1 25 = (1103539936, Ok 6) /\
  hex_32 Numba 0xDEADBEEF = hex_32 NumPy 0xDEADBEEF.
Proof.
  split; [exists 0x12345678, 0x9ABCDEF0, 0xFFFFFFFF, 1; now repeat split|].
  split; [repeat constructor; discriminate|].
  split; [repeat constructor; discriminate|].
  split; [repeat constructor; discriminate|].
  now vm_compute.
Qed.
