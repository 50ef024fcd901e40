(** What is seen of a generator: the results of repeated calls, and a PID with IVs. *)
From Coq Require Import NArith List.
From Verif Require Import Spec.Gen3Spec.
Import ListNotations.

(** The first [n] results of calling [step] again and again from state [s]. *)
Fixpoint results {S A} (step : S -> S * A) (n : nat) (s : S) : list A :=
  match n with
  | O => []
  | Datatypes.S n' => let '(s, r) := step s in r :: results step n' s
  end.

Open Scope N_scope.
(** A PID made of the first two rands from seed [s], and the HP, Attack and Defense IVs
    made of rand number [k]: the third one, or the fourth one for Method 2. *)
Definition pid_and_ivs (k s : N) : N * list N :=
  (rand_at s 1 + 65536 * rand_at s 2,
   [rand_at s k mod 32; rand_at s k / 32 mod 32; rand_at s k / 1024 mod 32]).
