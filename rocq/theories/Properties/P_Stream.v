(** C92: whatever is called on a generator, it stays a cursor on one sequence. *)
From Coq Require Import NArith ZArith List.
From Verif Require Import Base.Word Model.Lcrng32 Model.Lcrng64 Model.LcrngObject Model.Xorshift Model.Xoroshiro.
From Verif Require Import Spec.LcrngSpec Spec.XorshiftSpec Spec.ModesSpec Spec.StreamSpec Proofs.StreamProofs.
Import ListNotations.
Open Scope N_scope.

(** C92. LCRNG classes with any constants: any sequence of calls, mixed in any order,
    returns what the cursor returns and leaves the seed under the cursor. *)
Theorem C92_lcrng32 : forall m d add mult seed ops, Forall (lcrng32_valid d) ops ->
  let r := lcrng_cursor_run 32 mult add (rand_of_16 d) (seed mod 2^32, 0) ops in
  lcrng32_calls m d add mult (lcrng32_new seed) ops = (under 32 mult add (fst r), snd r).
Proof. exact stream_32. Qed.
Print Assumptions C92_lcrng32.

Theorem C92_lcrng64 : forall d add mult seed ops, Forall (lcrng64_valid d) ops ->
  let r := lcrng_cursor_run 64 mult add rand_of_32 (seed mod 2^64, 0) ops in
  lcrng64_calls d add mult (lcrng64_new seed) ops = (under 64 mult add (fst r), snd r).
Proof. exact stream_64. Qed.
Print Assumptions C92_lcrng64.

(** Xorshift128. Every seed has exactly one sequence of words, in both directions. *)
Theorem C92_xorshift_sequence : forall a b c d,
  exists x, xorshift_stream_of a b c d x /\ forall y, xorshift_stream_of a b c d y -> forall i, y i = x i.
Proof.
  exact (fun a b c d => match stream_exists a b c d with
         | ex_intro _ x H => ex_intro _ x (conj H (fun y Hy => stream_unique a b c d y x Hy H)) end).
Qed.
Print Assumptions C92_xorshift_sequence.

Theorem C92_xorshift : forall stream, (forall a b c d, xorshift_stream_of a b c d (stream a b c d)) ->
  forall m junk a b c d ops, length junk = 4%nat -> Forall xs_arguments ops ->
  let r := xs_cursor_run stream (stream a b c d, 0%Z) ops in
  xs_calls m (xs_new junk a b c d) ops = (xs_window (fst r), snd r).
Proof. exact stream_xs. Qed.
Print Assumptions C92_xorshift.

(** The Xoroshiro128+ classes, on the sequence of states. *)
Theorem C92_xoroshiro_sequence : forall a b, a < 2^64 -> b < 2^64 ->
  exists x, xoroshiro_stream_of a b x /\ forall y, xoroshiro_stream_of a b y -> forall i, y i = x i.
Proof.
  exact (fun a b Ha Hb => match ostream_exists a b Ha Hb with
         | ex_intro _ x H => ex_intro _ x (conj H (fun y Hy => ostream_unique a b y x Hy H)) end).
Qed.
Print Assumptions C92_xoroshiro_sequence.

Theorem C92_splitmix : forall stream, (forall a b, a < 2^64 -> b < 2^64 -> xoroshiro_stream_of a b (stream a b)) ->
  forall m junk seed ops, length junk = 2%nat -> Forall sm_arguments ops ->
  let r := sm_cursor_run stream (stream (splitmix64 (seed mod 2^64) 1) (splitmix64 (seed mod 2^64) 2), 0%Z) ops in
  sm_calls m (sm_new junk seed) ops = (fst (fst r) (snd (fst r)), snd r).
Proof. exact stream_sm. Qed.
Print Assumptions C92_splitmix.

(** With rejection, for calls whose loops have ended (that they do is C28). *)
Theorem C92_rejection : forall stream, (forall a b, a < 2^64 -> b < 2^64 -> xoroshiro_stream_of a b (stream a b)) ->
  forall m junk a b ops, length junk = 2%nat -> Forall xo_arguments ops ->
  ~ In (OExn OutOfFuel) (snd (xo_calls m (xo_new junk a b) ops)) ->
  exists c, fst (xo_calls m (xo_new junk a b) ops) = fst c (snd c) /\
    xo_cursor_run stream (stream (a mod 2^64) (b mod 2^64), 0%Z) ops c (snd (xo_calls m (xo_new junk a b) ops)).
Proof. exact stream_xo. Qed.
Print Assumptions C92_rejection.

Example C92_case_arguments :
  Forall (lcrng32_valid D32_RECIPROCAL_DIVISION) [LNext; LJump 10; LRand 25; LConstJump 3; LHalf; LAdvance 2; LConstRand 100] /\
  Forall xs_arguments [XNext; XPrev; XPrev; XAdvance 3; XRange (-5) 5; XAlt 9; XRand 100] /\
  Forall xo_arguments [ORand 5 65; OPrev; OPrev; ONext; OAdvance 9; OReInit 1 2].
Proof.
  split; [|split]; repeat (apply Forall_cons; [|]); try apply Forall_nil;
    cbv [lcrng32_valid xs_arguments xo_arguments]; try exact I; try (split; [easy|easy]); easy.
Qed.
(** Going back before the seed and on again; a rejection, and back over both draws. *)
Example C92_case :
  snd (lcrng_cursor_run 32 0x41C64E6D 0x6073 (rand_of_16 D32_RECIPROCAL_DIVISION) (7, 0)
         [LNext; LJump 10; LRand 25; LConstJump 3; LHalf; LAdvance 2; LConstRand 100])
    = [OVal 3429664110; OVal 2017902736; OVal 6; OVal 2873825140; OVal 26582; OVal 124124569; OVal 21] /\
  snd (xs_calls NumPy (xs_new [0; 0; 0; 0] 1 2 3 4) [XPrev; XPrev; XPrev; XPrev; XPrev; XAdvance 5; XPrev])
    = [OVal 4; OVal 3; OVal 2; OVal 1; OVal 29374471; ONone; OVal 4] /\
  snd (xo_calls NumPy (xo_new [0; 0] 5 60) [ORand 5 65; OPrev; OPrev; ONext])
    = [OVal 57; OVal 7834107969593; OVal 65; OVal 65].
Proof. split; [|split]; vm_compute; reflexivity. Qed.
