(** C60: the decorators without numba. *)
From Coq Require Import NArith Arith String List Bool Lia.
From Verif Require Import Base.Word Model.Compilation Model.Decorated.
Import ListNotations.
Open Scope list_scope.

(** C60. With arguments in parentheses, or as a class decorator, the name is bound to the
    undecorated function or class. [callv] and [is_type] are any Python semantics of the
    package's objects; signatures and specs are not classes. *)
Theorem C60_partial : forall V callv (is_type : V -> bool) u argument f, u <> Bare_njit ->
  (u = Bare_jitclass -> is_type f = true) ->
  (forall x, argument = Some (Given x) -> is_type x = false) ->
  decorate callv is_type u argument f = Ok (Given f).
Proof.
  intros V callv is_type u argument f Hu Hf Ha. destruct u; cbn.
  - now elim Hu.
  - reflexivity.
  - now rewrite Hf.
  - destruct argument as [[x|]|]; cbn; [|reflexivity|reflexivity]. now rewrite (Ha x).
Qed.
Print Assumptions C60_partial.

(** optional_njit without parentheses: the name is bound to a function that returns its
    argument, and raises TypeError for every other number of arguments, whatever the
    decorated function does. *)
Theorem C60_bare_njit_actual : forall V callv (is_type : V -> bool) argument f, exists g,
  decorate callv is_type Bare_njit argument f = Ok g /\
  (forall x, call_object callv g [x] = Ok x) /\
  (forall args, length args <> 1%nat -> call_object callv g args = Raise TypeError).
Proof.
  intros V callv is_type argument f. exists Wrap. split; [reflexivity|]. split; [reflexivity|].
  intros [|x [|y l]] H; try reflexivity. now elim H.
Qed.
Print Assumptions C60_bare_njit_actual.

(** The package does so with these functions; each call of six of them raises, and
    get_info_table_3 returns the game instead of a table. *)
Theorem C60_bare_njit_refuted :
  map (fun '(file, name, u, arity) => (name, arity))
    (filter (fun '(file, name, u, arity) => match u with Bare_njit => true | _ => false end) decorated)
  = [("get_info_table_3", 1%nat); ("calculate_hslot", 3%nat); ("calculate_hslot_lead", 5%nat);
     ("calculate_level", 3%nat); ("is_rse_safari_zone", 2%nat); ("get_modified_slots", 5%nat);
     ("get_encounter_rate", 2%nat)]%string /\
  forall file name arity, In (file, name, Bare_njit, arity) decorated ->
  forall V callv (is_type : V -> bool) argument f args, length args = arity ->
    exists g, decorate callv is_type Bare_njit argument f = Ok g /\
      call_object callv g args =
        if (arity =? 1)%nat then Ok (hd Wrap args) else Raise TypeError.
Proof.
  split; [reflexivity|]. intros file name arity _ V callv is_type argument f args <-. exists Wrap.
  split; [reflexivity|]. destruct args as [|x [|y l]]; reflexivity.
Qed.
Print Assumptions C60_bare_njit_refuted.

(** The other 37 uses are transparent. *)
Theorem C60_package_partial :
  length (filter (fun '(file, name, u, arity) => match u with Bare_njit => false | _ => true end) decorated) = 37%nat /\
  forall file name u arity, In (file, name, u, arity) decorated -> u <> Bare_njit ->
  forall V callv (is_type : V -> bool) argument f,
    (u = Bare_jitclass -> is_type f = true) ->
    (forall x, argument = Some (Given x) -> is_type x = false) ->
    exists g, decorate callv is_type u argument f = Ok g /\
      forall args, call_object callv g args = callv f args.
Proof.
  split; [reflexivity|]. intros file name u arity _ Hu V callv is_type argument f Hf Ha.
  exists (Given f). split; [now apply C60_partial|reflexivity].
Qed.
Print Assumptions C60_package_partial.

(** Numbers as objects: even ones are classes, calling one adds up. *)
Definition case_call (v : nat) (args : list (pyobj nat)) : res (pyobj nat) :=
  Ok (Given (fold_left (fun a x => match x with Given n => a + n | Wrap => a end)%nat args v)).
Example C60_case :
  decorate case_call Nat.even Called_njit (Some (Given 3%nat)) 5%nat = Ok (Given 5%nat) /\
  decorate case_call Nat.even Bare_jitclass None 4%nat = Ok (Given 4%nat) /\
  call_object case_call (Given 5%nat) [Given 2%nat; Given 3%nat] = Ok (Given 10%nat) /\
  exists g, decorate case_call Nat.even Bare_njit None 5%nat = Ok g /\
    call_object case_call g [Given 2%nat; Given 3%nat] = Raise TypeError.
Proof. repeat split. now exists Wrap. Qed.
