(** compilation.py without numba (USE_NUMBA is False): optional_jitclass (126-156) and
    optional_njit (159-175). With numba both pass their argument to numba. *)
From Coq Require Import NArith List Bool.
From Verif Require Import Base.Word.
Import ListNotations.

(** A Python object: one that the package defines, or the function [wrap] that both
    decorators make. *)
Inductive pyobj (V : Type) := Given (v : V) | Wrap.
Arguments Given {V}. Arguments Wrap {V}.

(** A call. [callv] calls the package's own functions and classes; wrap takes one argument
    and returns it. *)
Definition call_object {V} (callv : V -> list (pyobj V) -> res (pyobj V)) (f : pyobj V) (args : list (pyobj V)) :
    res (pyobj V) :=
  match f with
  | Given v => callv v args
  | Wrap => match args with [x] => Ok x | _ => Raise TypeError end
  end.

(** compilation.py:159-175: wrap, whatever the arguments are. *)
Definition optional_njit {V} (signature_or_function : option (pyobj V)) : pyobj V := Wrap.
(** compilation.py:149-156. [is_type]: isinstance(x, type). *)
Definition optional_jitclass {V} (is_type : V -> bool) (cls_or_spec : option (pyobj V)) : pyobj V :=
  match cls_or_spec with
  | Some (Given c) => if is_type c then Given c else Wrap
  | _ => Wrap
  end.

(** How a decorator is written: by its name, or with arguments in parentheses. *)
Inductive use := Bare_njit | Called_njit | Bare_jitclass | Called_jitclass.
(** What the decorated name is bound to. [argument] is the first argument in parentheses: a
    signature or a spec, which are not classes, or none. *)
Definition decorate {V} callv (is_type : V -> bool) (u : use) (argument : option (pyobj V)) (f : V) : res (pyobj V) :=
  match u with
  | Bare_njit => Ok (optional_njit (Some (Given f)))
  | Called_njit => call_object callv (optional_njit argument) [Given f]
  | Bare_jitclass => Ok (optional_jitclass is_type (Some (Given f)))
  | Called_jitclass => call_object callv (optional_jitclass is_type argument) [Given f]
  end.
