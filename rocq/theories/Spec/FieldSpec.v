(** What the fields of a compiled class should be. *)
From Coq Require Import String List.
From Verif Require Import Model.JitSpec.
Import ListNotations.

(** The type of numba that an annotation stands for. *)
Inductive means : pytype -> ntype -> Prop :=
  | means_itself t : means (Numba_type t) t
  | means_dtype d : means (Np_dtype d) (NScalar d)
  | means_string : means Np_str NString
  | means_void : means Np_void NVoid
  | means_instance c : means (Jitclass c) (NInstance c).

(** A class body, or a spec, names each attribute once. *)
Definition names_once (body : spec) : Prop := NoDup (map fst body).

(** [declares c a h]: [h] is the annotation of [a] in the class, or the one it inherits. *)
Inductive declares : pyclass -> string -> pytype -> Prop :=
  | declares_itself body bases a h : In (a, h) body -> declares (body :: bases) a h
  | declares_inherited body bases a h :
      ~ In a (map fst body) -> declares bases a h -> declares (body :: bases) a h.

(** [has_fields s P]: the fields of the spec are those of [P], in their types. *)
Definition has_fields (s : spec) (P : string -> pytype -> Prop) : Prop :=
  forall a t, dict_get s a = Some t <-> exists h n, P a h /\ means h n /\ t = Numba_type n.
