(** What a SIMDFastMersenneTwister object should do, as a machine whose state is the
    seed and the number of outputs consumed since it was (re)initialised. *)
From Coq Require Import NArith List.
From Verif Require Import Base.Word Spec.SFMTSpec Model.SFMT.
Import ListNotations.
Open Scope N_scope.

Section Machine.
  (** [W s] is the 128-bit word sequence of seed [s]. *)
  Variable W : N -> nat -> N.

  Definition sfmt_abs (s : N * nat) (op : sfmt_op) : (N * nat) * outcome :=
    let '(seed, pos) := s in
    let out := sfmt19937_output (W seed) pos in
    match op with
    | SNext => ((seed, S pos), OVal out)
    | SAdvance n => ((seed, (pos + N.to_nat n)%nat), ONone)
    | SRand maximum => ((seed, S pos), OVal (out mod maximum))
    | SReInit seed' => ((seed', 0%nat), ONone)
    | SShuffle => (s, ONone)
    end.

  Fixpoint sfmt_abs_run (s : N * nat) (ops : list sfmt_op) : list outcome :=
    match ops with
    | [] => []
    | op :: t => let '(s, o) := sfmt_abs s op in o :: sfmt_abs_run s t
    end.
End Machine.

(** The calls the machine speaks about. Calling shuffle by hand is not one of
    them: it is the block step that next and advance use. *)
Definition sfmt_op_valid (m : mode) (op : sfmt_op) : Prop :=
  match op with
  | SNext | SReInit _ => True
  | SAdvance n => match m with NumPy => 2 * n + 624 < 2^32 | Numba => n < 2^32 end
  | SRand maximum => 0 < maximum < 2^64
  | SShuffle => False
  end.

(** An object that some sequence of method calls leads to. [junk] is what np.empty
    left in the fresh array: any 624 words. *)
Definition sfmt_reached (m : mode) (self : sfmt) : Prop :=
  exists junk seed ops, length junk = 624%nat /\ self = fst (sfmt_calls m (sfmt_new junk seed) ops).
(** The object after one discarded output. *)
Definition sfmt_next_state (m : mode) (self : sfmt) : sfmt := fst (sfmt_call m self SNext).
(** The next [k] outputs of an object. *)
Definition sfmt_outputs_of (m : mode) (self : sfmt) (k : nat) : list outcome :=
  snd (sfmt_calls m self (repeat SNext k)).
