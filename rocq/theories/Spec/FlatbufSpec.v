(** The FlatBuffer format, independently of how it is read: when a buffer holds an object
    at an address. Any order of the fields, any padding, shared or private vtables and
    omitted trailing fields are allowed. *)
From Coq Require Import NArith ZArith List Bool.
From Verif Require Import Base.Word Model.Flatbuf.
Import ListNotations.
Open Scope N_scope.

(** Contents: an object is its list of fields, absent fields are [None]. A scalar is its
    bit pattern. *)
Inductive obj := Obj (fields : list (option field))
with field :=
| FScalar (width : nat) (bits : N)
| FRef (o : obj)
| FVec (l : list obj)
| FStr (bytes : list N).

(** The little-endian bytes of a number. *)
Fixpoint le_bytes (w : nat) (n : N) : list N :=
  match w with O => [] | S w' => n mod 256 :: le_bytes w' (n / 256) end.
(** [buf] has the bytes [l] at address [a]. *)
Definition bytes_at (buf : list N) (a : N) (l : list N) : Prop :=
  exists before after, buf = before ++ l ++ after /\ N.of_nat (length before) = a.
Definition number_at (buf : list N) (a : N) (w : nat) (n : N) : Prop :=
  n < 2 ^ (8 * N.of_nat w) /\ bytes_at buf a (le_bytes w n).
(** A signed 32-bit number. *)
Definition signed_at (buf : list N) (a : N) (z : Z) : Prop :=
  (- 2^31 <= z < 2^31)%Z /\ number_at buf a 4 (Z.to_N (z mod 2^32)).

Inductive object_at (buf : list N) : N -> obj -> Prop :=
| Object_at pos fields vtable size :
    pos < 2^32 ->
    signed_at buf pos (Z.of_N pos - Z.of_N vtable) ->
    number_at buf vtable 2 size ->
    vtable < 2^32 - 2^16 ->
    (forall k, entry_at buf pos vtable size k (nth_error fields k)) ->
    object_at buf pos (Obj fields)
(** Entry [k] of the vtable: beyond its end or 0 for an absent field, else the distance of
    the field from the start of the object. *)
with entry_at (buf : list N) : N -> N -> N -> nat -> option (option field) -> Prop :=
| Entry_beyond pos vtable size k f :
    size <= 4 + 2 * N.of_nat k -> f = None \/ f = Some None ->
    entry_at buf pos vtable size k f
| Entry_zero pos vtable size k f :
    4 + 2 * N.of_nat k < size -> number_at buf (vtable + 4 + 2 * N.of_nat k) 2 0 ->
    f = None \/ f = Some None ->
    entry_at buf pos vtable size k f
| Entry_present pos vtable size k f distance :
    4 + 2 * N.of_nat k < size -> distance <> 0 ->
    number_at buf (vtable + 4 + 2 * N.of_nat k) 2 distance ->
    field_at buf (pos + distance) f ->
    entry_at buf pos vtable size k (Some (Some f))
with field_at (buf : list N) : N -> field -> Prop :=
| Scalar_at a w n : a < 2^32 -> number_at buf a w n -> field_at buf a (FScalar w n)
| Ref_at a o u : a < 2^32 -> number_at buf a 4 u -> object_at buf (a + u) o -> field_at buf a (FRef o)
| Vec_at a l u : a < 2^32 -> number_at buf a 4 u ->
    number_at buf (a + u) 4 (N.of_nat (length l)) ->
    items_at buf (a + u + 4) l -> field_at buf a (FVec l)
| Str_at a l u : a < 2^32 -> number_at buf a 4 u ->
    number_at buf (a + u) 4 (N.of_nat (length l)) ->
    bytes_at buf (a + u + 4) l -> field_at buf a (FStr l)
with items_at (buf : list N) : N -> list obj -> Prop :=
| Items_nil a : items_at buf a []
| Items_cons a o l u : a < 2^32 -> number_at buf a 4 u -> object_at buf (a + u) o ->
    items_at buf (a + 4) l -> items_at buf a (o :: l).

(** A whole buffer: the address of the root object, then anything. *)
Definition root_at (buf : list N) (o : obj) : Prop :=
  exists pos, number_at buf 0 4 pos /\ object_at buf pos o.

(** What a field holds. *)
Definition field_of (o : obj) (k : nat) : option field :=
  match o with Obj fields => match nth_error fields k with Some f => f | None => None end end.

(** The number that the bits of a scalar mean: two's complement for signed types. *)
Definition value_of (t : ntype) (n : N) : Z :=
  if nt_signed t
  then ((Z.of_N n + 2 ^ (8 * Z.of_nat (nt_width t) - 1)) mod 2 ^ (8 * Z.of_nat (nt_width t))
        - 2 ^ (8 * Z.of_nat (nt_width t) - 1))%Z
  else Z.of_N n.
(** Field [k] is absent or a scalar of [w] bytes, and its value; [d] if absent. *)
Definition scalar_field (o : obj) (k : nat) (w : nat) : Prop :=
  match field_of o k with None => True | Some (FScalar w' _) => w' = w | Some _ => False end.
Definition int_value (t : ntype) (d : option Z) (o : obj) (k : nat) : option Z :=
  match field_of o k with Some (FScalar _ n) => Some (value_of t n) | _ => d end.
Definition float_value (d : option N) (o : obj) (k : nat) : option N :=
  match field_of o k with Some (FScalar _ n) => Some n | _ => d end.
Definition bool_value (o : obj) (k : nat) : option bool :=
  match field_of o k with Some (FScalar _ n) => Some (negb (n =? 0)) | _ => None end.

(** A reader of object [o] of the buffer that is about to read field [k]. *)
Definition at_field (buf : list N) (pos : N) (o : obj) (k : nat) (st : fbo) : Prop :=
  object_at buf pos o /\ st = mkFbo (mkTable buf pos) pos (4 + 2 * N.of_nat k).
(** A constructor that reads objects of one kind, wherever they are. *)
Definition reads {A} (cls : list N -> N -> res A) (P : obj -> A -> Prop) : Prop :=
  forall buf pos o x, object_at buf pos o -> P o x -> cls buf pos = Ok x.
