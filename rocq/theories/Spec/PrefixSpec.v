(** Specification for C94: what becomes of a reader when the bytes are cut short. *)
From Coq Require Import NArith List.
From Verif Require Import Base.Word.
Import ListNotations.

(** [keep] bytes of a file instead of the whole: the same result or an exception. *)
Definition same_or_raises {A} (read : list N -> res A) : Prop :=
  forall file keep, read (firstn keep file) = read file \/ exists e, read (firstn keep file) = Raise e.
(** Bytes behind the end of a file that can be read are never looked at. *)
Definition ignores_the_rest {A} (read : list N -> res A) : Prop :=
  forall file rest v, read file = Ok v -> read (file ++ rest) = Ok v.
(** The only exceptions of a reader, on any bytes. *)
Definition raises_only {A} (es : list exn) (read : list N -> res A) : Prop :=
  forall file e, read file = Raise e -> In e es.
