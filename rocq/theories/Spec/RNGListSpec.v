(** A window of [size] consecutive outputs on the stream of a generator, with a cursor
    that moves round the window. *)
From Coq Require Import NArith List.
From Verif Require Import Base.Word Model.RNGList.
Import ListNotations.
Open Scope N_scope.

(** Output number i (from 0) of a generator started in state s. *)
Definition stream {S} (nxt : S -> S * N) (s : S) (i : N) : N :=
  snd (nxt (N.iter i (fun s => fst (nxt s)) s)).

(** (number of the first output in the window, cursor relative to the window). *)
Definition window := (N * N)%type.
Definition window_op (out : N -> N) (size : N) (w : window) (op : rl_op) : window * outcome :=
  let '(start, cursor) := w in
  match op with
  | RReInit => ((start + size, 0), ONone)
  | RAdvanceStates adv =>
      (if adv mod 2^32 =? 0 then w else (start + adv mod 2^32, 0), ONone)
  | RAdvanceState => ((start + 1, 0), ONone)
  | RAdvance adv => ((start, (cursor + adv mod 2^32) mod size), ONone)
  | RGet => ((start, (cursor + 1) mod size), OVal (out (start + cursor)))
  end.
Fixpoint window_run (out : N -> N) (size : N) (w : window) (ops : list rl_op) : list outcome :=
  match ops with
  | [] => []
  | op :: t => let '(w, o) := window_op out size w op in o :: window_run out size w t
  end.
