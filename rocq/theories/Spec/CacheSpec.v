(** What the pickle cache relies on and promises. *)
From Coq Require Import NArith String List.
From Verif Require Import Base.Word Model.Cache.
Import ListNotations.
Open Scope list_scope.

(** pickle: what was dumped is loaded, a dump has bytes, and decode undoes encode. *)
Definition pickles {K V P} (c : cached K V P) : Prop :=
  (forall p, c_loads c (c_dumps c p) = Ok p) /\ (forall p, c_dumps c p <> []) /\
  (forall k v, c_function c k = Ok v -> c_decode c (c_encode c v) = v).
(** pickle: a dump that lacks bytes at the end is not loaded. *)
Definition detects_truncation {K V P} (c : cached K V P) : Prop :=
  forall p n, (0 < n < length (c_dumps c p))%nat -> exists e, c_loads c (firstn n (c_dumps c p)) = Raise e.
(** Calls with different results have different files. *)
Definition separate {K V P} (c : cached K V P) : Prop :=
  forall k k' name, c_file c k = Ok name -> c_file c k' = Ok name -> c_function c k = c_function c k'.
(** Each file that is not empty holds the result of the calls it belongs to. *)
Definition valid {K V P} (c : cached K V P) (f : fs) : Prop :=
  forall k name b data, c_file c k = Ok name -> f name = Some (b :: data) ->
    exists v, c_function c k = Ok v /\ c_dumps c (c_encode c v) = b :: data.
