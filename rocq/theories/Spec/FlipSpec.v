(** Runs of calls that may raise. *)
From Coq Require Import NArith List.
From Verif Require Import Base.Word.
Import ListNotations.

(** The results of [n] calls of [step] from state [s]; the first exception ends the run. *)
Fixpoint results_or_exn {S A} (step : S -> res (S * A)) (n : nat) (s : S) : res (list A) :=
  match n with
  | O => Ok []
  | Datatypes.S n' =>
      match step s with
      | Raise e => Raise e
      | Ok (s, r) =>
          match results_or_exn step n' s with Raise e => Raise e | Ok l => Ok (r :: l) end
      end
  end.
