(** C93: returned integers fit the types of the signatures. *)
From Coq Require Import NArith ZArith List.
From Verif Require Import Base.Word Model.Lcrng32 Model.Lcrng64 Model.LcrngObject Model.MT Model.SFMT Model.TinyMT
  Model.Xorshift Model.Xoroshiro Model.Util Model.FNV Model.SHA1Class.
From Verif Require Import Spec.FitSpec Proofs.FitProofs.
Import ListNotations.
Open Scope N_scope.

(** C93. LCRNG classes, with any constants, any calls and any arguments. *)
Theorem C93_lcrng32 : forall m d add mult seed ops,
  each_fits lcrng32_width ops (snd (lcrng32_calls m d add mult (lcrng32_new seed) ops)).
Proof. exact fits_32. Qed.
Print Assumptions C93_lcrng32.

Theorem C93_lcrng64 : forall d add mult seed ops,
  each_fits lcrng64_width ops (snd (lcrng64_calls d add mult (lcrng64_new seed) ops)).
Proof. exact fits_64. Qed.
Print Assumptions C93_lcrng64.

(** The twisters. [tiny_width] is 33 for next and temper under numba, which is C20. *)
Theorem C93_mt : forall m junk seed ops, length junk = 624%nat ->
  each_fits (fun _ => 32) ops (snd (mt_calls m (mt_new junk seed) ops)).
Proof. exact fits_mt. Qed.
Print Assumptions C93_mt.

Theorem C93_sfmt : forall m junk seed ops, length junk = 624%nat ->
  each_fits (fun _ => 64) ops (snd (sfmt_calls m (sfmt_new junk seed) ops)).
Proof. exact fits_sfmt. Qed.
Print Assumptions C93_sfmt.

Theorem C93_tinymt : forall m junk seed ops, length junk = 4%nat ->
  each_fits (tiny_width m) ops (snd (tiny_calls m (tiny_new m junk seed) ops)).
Proof. exact fits_tiny. Qed.
Print Assumptions C93_tinymt.

(** Xorshift and both Xoroshiro classes; the latter from any state. *)
Theorem C93_xorshift : forall m junk a b c d ops, length junk = 4%nat ->
  each_fits (fun _ => 32) ops (snd (xs_calls m (xs_new junk a b c d) ops)).
Proof. exact fits_xs. Qed.
Print Assumptions C93_xorshift.

Theorem C93_xoroshiro : forall m st ops,
  each_fits xo_width ops (snd (xo_calls m st ops)) /\
  forall sops, each_fits (fun _ => 32) sops (snd (sm_calls m st sops)).
Proof. exact (fun m st ops => conj (fits_xo m st ops) (fun sops => fits_sm m st sops)). Qed.
Print Assumptions C93_xoroshiro.

(** The functions. *)
Theorem C93_functions :
  (forall l, fnv1_64 l < 2^64 /\ fnv1a_64 l < 2^64) /\
  (forall s alpha, snd (sha1_hash_seed s alpha) < 2^64) /\
  (forall v, change_endian_u32 v < 2^32) /\
  (forall m v k r,
    (rotate_left_u32 m v k = Ok r \/ rotate_right_u32 m v k = Ok r -> r < 2^32) /\
    (rotate_left_u64 m v k = Ok r \/ rotate_right_u64 m v k = Ok r -> r < 2^64)).
Proof. exact (conj fnv1_fits (conj hash_fits (conj change_endian_fits rotations_fit))). Qed.
Print Assumptions C93_functions.

(** Arguments and seeds that do not fit are cast, not passed through; a TinyMT output
    with the carry takes 33 bits. *)
Example C93_case :
  snd (lcrng32_calls NumPy D32_MODULO 0x6073 0x41C64E6D (lcrng32_new (2^40 + 5))
         [LNext; LHalf; LRand (2^16 + 7); LAdvance 3; LJump (2^32); LReInit (2^33)])
    = [OVal 1222633620; OVal 46763; OVal 6; OVal 102391243; OExn IndexError; ONone] /\
  tiny_width Numba TNext = 33 /\
  (exists v, snd (tiny_call Numba [0xFFFFFFFF; 0; 0xFFFFFFFF; 0] TTemper) = OVal v /\ 2^32 <= v).
Proof. split; [vm_compute; reflexivity|]. split; [reflexivity|]. eexists. split; [vm_compute; reflexivity|]. discriminate. Qed.
