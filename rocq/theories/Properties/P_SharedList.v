(** Property C107. *)
From Coq Require Import NArith List.
From Verif Require Import Base.Word Model.RNGList Model.SharedList Spec.RNGListSpec Spec.SharedListSpec.
From Verif Require Import Proofs.SharedListProofs.
Import ListNotations.
Open Scope N_scope.

(** C107. For any generator and any program that builds lists on it, calls their methods
    and the generator's own in any order, the results are those of dealing the outputs
    out one after the other, and the caller's generator has advanced by the number
    dealt. *)
Theorem C107_shared_generator : forall S (m : mode) (nxt : S -> S * N) (s0 : S) ops,
  Forall (built_well m) ops ->
  let '((rng, _), results) := sh_calls m nxt (s0, []) ops in
  let '((gone, _), expected) := deals (stream nxt s0) (0, []) ops in
  results = expected /\ rng = N.iter gone (fun s => fst (nxt s)) s0.
Proof. exact @shared_history. Qed.
Print Assumptions C107_shared_generator.

(** In that account no output is ever held by two lists or in two places, none that is
    held is still to come, and every list keeps its outputs in order. *)
Theorem C107_no_output_twice : forall out ops, no_output_twice (fst (deals out (0, []) ops)).
Proof. exact never_twice. Qed.
Print Assumptions C107_no_output_twice.

(** What the caller draws directly never turns up in a list, before or after. *)
Theorem C107_callers_outputs : forall out ops1 ops2 k h j,
  let gone := fst (fst (deals out (0, []) ops1)) in
  nth_error (snd (fst (deals out (0, []) (ops1 ++ ShNext :: ops2)))) k = Some h -> j < h_size h -> held h j <> gone.
Proof. exact callers_own. Qed.
Print Assumptions C107_callers_outputs.

(** Two lists (of four and of two) on a counter, with the caller drawing in between. *)
Example C107_case :
  let nxt s := (s + 1, 100 + s) in
  let ops := [ShNew w32 4 [9;9;9;9]; ShNext; ShNew w16 2 [7;7]; ShCall 0 RAdvanceState; ShCall 1 RGet;
              ShCall 1 (RAdvanceStates 3); ShCall 0 (RAdvance 3); ShCall 0 RGet; ShCall 0 RGet; ShCall 1 RGet; ShNext] in
  Forall (built_well Numba) ops /\
  snd (sh_calls Numba nxt (0, []) ops) =
    [ONone; OVal 104; ONone; ONone; OVal 105; ONone; ONone; OVal 107; OVal 101; OVal 109; OVal 111] /\
  fst (fst (sh_calls Numba nxt (0, []) ops)) = 12 /\
  snd (deals (stream nxt 0) (0, []) ops) = snd (sh_calls Numba nxt (0, []) ops).
Proof.
  cbv zeta. split; [|now vm_compute].
  repeat apply Forall_cons; try exact I; try apply Forall_nil.
  - split; [now exists 2|]. split; [reflexivity|]. intros _. discriminate.
  - split; [now exists 1|]. split; [reflexivity|]. intros _. discriminate.
Qed.
