(** compilation.py under numba (USE_NUMBA is True): how optional_jitclass makes the spec, the
    dict of field types, that it hands to numba.experimental.jitclass. *)
From Coq Require Import String List.
From Verif Require Import Base.Word.
Import ListNotations.
Open Scope string_scope.
Open Scope list_scope.

(** Dtypes of numpy; [Record_] is that of a class made by dtype_dataclass. *)
Inductive dtype := Bool_ | U8 | U16 | U32 | U64 | F32 | F64 | Record_ (name : string).
(** Types of numba. [NScalar d] is numba.from_dtype(d). *)
Inductive ntype :=
  | NScalar (d : dtype) | NArray (d : dtype) (ndim : nat) | NVoid | NString
  | NInstance (cls : string).
(** What annotations and specs hold: types of numba, np.void, np.str_, a compiled class
    (which has the attribute class_type), or a dtype. *)
Inductive pytype :=
  | Numba_type (t : ntype) | Np_void | Np_str | Jitclass (cls : string) | Np_dtype (d : dtype).

(** compilation.py:64-68, array_type with its default layout. *)
Definition array_type (d : dtype) : pytype := Numba_type (NArray d 1).

(** compilation.py:21-38, convert_to_numba. *)
Definition convert_to_numba (t : pytype) : ntype :=
  match t with
  | Numba_type t => t
  | Np_void => NVoid
  | Np_str => NString
  | Jitclass c => NInstance c
  | Np_dtype d => NScalar d
  end.

(** A dict with string keys. *)
Definition spec := list (string * pytype).
Fixpoint dict_get (s : spec) (k : string) : option pytype :=
  match s with
  | [] => None
  | (k', v) :: s => if String.eqb k' k then Some v else dict_get s k
  end.
Fixpoint dict_set (s : spec) (k : string) (v : pytype) : spec :=
  match s with
  | [] => [(k, v)]
  | (k', v') :: s => if String.eqb k' k then (k', v) :: s else (k', v') :: dict_set s k v
  end.

(** compilation.py:79-83, convert_spec: the dict that is passed is changed and returned. *)
Definition convert_spec (s : spec) : spec :=
  fold_left (fun s '(attr, t) => dict_set s attr (Numba_type (convert_to_numba t))) s s.

(** A class is given by the annotations in the bodies of the classes of its method
    resolution order, itself first. *)
Definition pyclass := list spec.
(** typing.get_type_hints of a class: bodies from the last base to the class. *)
Definition get_type_hints (c : pyclass) : spec :=
  fold_left (fun hints body => fold_left (fun h '(a, t) => dict_set h a t) body hints) (rev c) [].

(** compilation.py:85-90, convert_spec_cls. The dict that is passed, unless empty or None,
    is changed and returned. *)
Definition convert_spec_cls (s : option spec) (c : pyclass) : spec :=
  fold_left (fun s '(attr, t) => dict_set s attr (Numba_type (convert_to_numba t)))
    (get_type_hints c) (match s with Some s => s | None => [] end).

(** The first argument of optional_jitclass, if it is not None. *)
Inductive first_argument := A_class (c : pyclass) | A_spec (s : spec).
(** What optional_jitclass returns: a class compiled with a spec, or a decorator that is to
    be called with the class. numba.experimental.jitclass compiles the class with the spec;
    given a spec only, it returns a decorator. Annotations outside the spec, which numba would
    add to it by its own rules, are left out: the only class given with a spec has none. *)
Inductive jit_result := Compiled (c : pyclass) (s : spec) | Decorator (f : pyclass -> spec).

(** compilation.py:126-148, optional_jitclass under numba. *)
Definition optional_jitclass_numba (cls_or_spec : option first_argument) (s : option spec) : jit_result :=
  let cls_or_spec :=
    match cls_or_spec, s with
    | Some (A_spec d), None => Some (A_spec (convert_spec d))          (* 129-134 *)
    | _, _ => cls_or_spec
    end in
  let s := option_map convert_spec s in                                  (* 135-136 *)
  match cls_or_spec with
  | None => Decorator (fun cls => convert_spec_cls None cls)             (* 138-144 *)
  | Some (A_class c) => Compiled c (convert_spec_cls s c)                (* 146-148 *)
  | Some (A_spec d) => Decorator (fun cls => d)                          (* 148, s is None *)
  end.

(** The fields of the class that an application of the decorator to [c] compiles. *)
Definition jitclass_fields (r : jit_result) (c : pyclass) : spec :=
  match r with Compiled _ s => s | Decorator f => f c end.

(** rng_list.py:53-60: the spec of a list of the class [rng_class]. *)
Definition rnglist_spec (rng_class : string) : spec :=
  [("list", array_type U32); ("rng", Numba_type (NInstance rng_class));
   ("head", Np_dtype U16); ("pointer", Np_dtype U16)].
(** rng_list.py:67: the type of np.empty(size, dtype=state_type) under numba. *)
Definition rnglist_buffer (state_type : dtype) : ntype := NArray state_type 1.

(** numba's rule for assigning to a field: numbers are converted, everything else must have
    the type of the field. *)
Definition dtype_eq_dec (a b : dtype) : {a = b} + {a <> b}.
Proof. decide equality. apply string_dec. Defined.
Definition ntype_eq_dec (a b : ntype) : {a = b} + {a <> b}.
Proof. decide equality; try apply dtype_eq_dec; try apply string_dec. decide equality. Defined.
Definition is_number (t : ntype) : bool :=
  match t with NScalar (Record_ _) => false | NScalar _ => true | _ => false end.
Local Open Scope bool_scope.
Definition may_store (field value : ntype) : bool :=
  (is_number field && is_number value) || (if ntype_eq_dec field value then true else false).
