(** What a MersenneTwister object should do, as a machine whose state is the seed
    and the number of outputs consumed since it was (re)initialised. *)
From Coq Require Import NArith List.
From Verif Require Import Base.Word Spec.MTSpec Model.MT.
Import ListNotations.
Open Scope N_scope.

Section Machine.
  (** [x s] is the word sequence of seed [s]. *)
  Variable x : N -> nat -> N.

  Definition mt_abs (s : N * nat) (op : mt_op) : (N * nat) * outcome :=
    let '(seed, pos) := s in
    let out := mt19937_output (x seed) pos in
    match op with
    | MNext => ((seed, S pos), OVal out)
    | MAdvance n => ((seed, (pos + N.to_nat n)%nat), ONone)
    | MRand maximum => ((seed, S pos), OVal (out * maximum / 2^32))
    | MRandMod maximum => ((seed, S pos), OVal (out mod maximum))
    | MReInit seed' => ((seed', 0%nat), ONone)
    | MShuffle => (s, ONone)
    end.

  Fixpoint mt_abs_run (s : N * nat) (ops : list mt_op) : list outcome :=
    match ops with
    | [] => []
    | op :: t => let '(s, o) := mt_abs s op in o :: mt_abs_run s t
    end.
End Machine.

(** The calls the machine speaks about. Calling shuffle by hand is not one of
    them: it is the block step that next and advance use. *)
Definition mt_op_valid (m : mode) (op : mt_op) : Prop :=
  match op with
  | MNext | MReInit _ => True
  | MAdvance n => match m with NumPy => n + 624 < 2^32 | Numba => n < 2^32 end
  | MRand maximum => maximum <= 2^32
  | MRandMod maximum => 0 < maximum < 2^32
  | MShuffle => False
  end.

(** An object that some sequence of method calls leads to. [junk] is what np.empty
    left in the fresh array. *)
Definition mt_reached (m : mode) (self : mt) : Prop :=
  exists junk seed ops, length junk = 624%nat /\ self = fst (mt_calls m (mt_new junk seed) ops).
(** The object after one discarded output. *)
Definition next_state (self : mt) : mt := fst (mt_next self).
(** The next [k] outputs of an object. *)
Definition mt_outputs_of (m : mode) (self : mt) (k : nat) : list outcome :=
  snd (mt_calls m self (repeat MNext k)).
