(** numba_pokemon_prngs/patch.py: how the package makes numba's array types. Of numba, what
    these functions call is modelled: Buffer.__init__ (Array's base class) refuses a dtype
    that is itself a Buffer and a layout it does not know. *)
From Coq Require Import NArith String List Bool Decimal DecimalString.
From Verif Require Import Base.Word Model.Util.
Import ListNotations.
Open Scope string_scope.
Open Scope list_scope.
Open Scope N_scope.

(** The attributes of a numba type. [Other]: a type that is no Record and no Buffer; its
    [bitwidth] is absent for some. *)
Inductive ntype :=
| Other (name : string) (bitwidth : option N)
| Record_ (name : string) (itemsize : N) (aligned : bool)
| Array (name : string) (dtype : ntype) (ndim : N) (layout : string) (mutable aligned : bool)
| NestedArray (name : string) (dtype : ntype) (shape : list N) (mutable aligned : bool).

(** str(type). *)
Definition type_name (t : ntype) : string :=
  match t with Other n _ => n | Record_ n _ _ => n | Array n _ _ _ _ _ => n | NestedArray n _ _ _ _ => n end.
(** patch.py:11-15: Record has a bitwidth. An Array has none. *)
Definition type_bitwidth (t : ntype) : res N :=
  match t with
  | Other _ (Some b) => Ok b
  | Record_ _ itemsize _ => Ok (itemsize * 8)
  | _ => Raise AttributeError
  end.
Definition is_buffer (t : ntype) : bool :=
  match t with Array _ _ _ _ _ _ | NestedArray _ _ _ _ _ => true | _ => false end.

(** str(n) and str((n, ...)). *)
Definition str_int (n : N) : string := NilZero.string_of_uint (N.to_uint n).
Definition str_shape (shape : list N) : string :=
  ("(" ++ String.concat ", " (map str_int shape) ++ (if Nat.eqb (length shape) 1 then "," else "") ++ ")")%string.

(** numba's Buffer.__init__, called at patch.py:34: the numba classes of the two errors are
    not told apart from TypeError and ValueError. *)
Definition LAYOUTS : list string := ["C"; "F"; "CS"; "FS"; "A"].
Definition buffer_init (dtype : ntype) (layout : string) : res unit :=
  if is_buffer dtype then Raise TypeError
  else if existsb (String.eqb layout) LAYOUTS then Ok tt else Raise ValueError.

(** patch.py:17-34, the part of new_array_init that both classes share: the attributes that
    it sets. [name]: the argument of that name. *)
Definition array_init (dtype : ntype) (ndim : N) (layout : string) (readonly : bool)
    (name : option string) (aligned : bool) : res (string * ntype * N * bool * bool) :=
  let mutable := negb readonly in
  let is_aligned :=
    negb (negb aligned || match dtype with Record_ _ _ a => negb a | _ => false end) in
  let '(ndim, dtype) :=
    match dtype with
    | NestedArray _ d shape _ _ => (ndim + N.of_nat (length shape), d)
    | _ => (ndim, dtype)
    end in
  let name :=
    match name with
    | Some n => n
    | None =>
        let t := "array" in
        let t := if mutable then t else "readonly " ++ t in
        let t := if is_aligned then t else "unaligned " ++ t in
        t ++ "(" ++ type_name dtype ++ ", " ++ str_int ndim ++ "d, " ++ layout ++ ")"
    end%string in
  rmap (fun _ => (name, dtype, ndim, mutable, is_aligned)) (buffer_init dtype layout).

(** Array(dtype, ndim, layout, readonly, name, aligned). *)
Definition new_array (dtype : ntype) (ndim : N) (layout : string) (readonly : bool)
    (name : option string) (aligned : bool) : res ntype :=
  rmap (fun '(name, dtype, ndim, mutable, is_aligned) => Array name dtype ndim layout mutable is_aligned)
    (array_init dtype ndim layout readonly name aligned).

(** patch.py:38-47: NestedArray(dtype, shape). *)
Definition new_nested (dtype : ntype) (shape : list N) : res ntype :=
  rbind
    (match dtype with
     | NestedArray _ d s _ _ =>
         rbind (new_array d (N.of_nat (length s)) "C" false None true) (fun tmp =>
         match tmp with
         | Array _ d' _ _ _ _ => Ok (d', shape ++ s)
         | _ => Raise AttributeError
         end)
     | _ => Ok (dtype, shape)
     end) (fun '(dtype, shape) =>
  rbind (type_bitwidth dtype) (fun b =>
  if b mod 8 =? 0 then
    let name := ("nestedarray(" ++ type_name dtype ++ ", " ++ str_shape shape ++ ")")%string in
    rmap (fun '(name, dtype, _, mutable, is_aligned) => NestedArray name dtype shape mutable is_aligned)
      (array_init dtype (N.of_nat (length shape)) "C" false (Some name) true)
  else Raise AssertionError)).
