(** data/fbs/flatbuffer_object.py: reading FlatBuffer tables, with the part of the
    flatbuffers runtime (23.5.26, table.py and encode.py) that it calls.

    Floats are kept as the bit pattern that the buffer holds. A missing default is
    [None], as in Python. *)
From Coq Require Import NArith ZArith List Bool.
From Verif Require Import Base.Word.
Import ListNotations.
Open Scope N_scope.

(** ** The flatbuffers runtime *)

(** flatbuffer_object.py:11-20: the number types, by width in bytes and sign. *)
Record ntype := mkNtype { nt_width : nat; nt_signed : bool }.
Definition U8 := mkNtype 1 false.
Definition U16 := mkNtype 2 false.
Definition U32 := mkNtype 4 false.
Definition U64 := mkNtype 8 false.
Definition I8 := mkNtype 1 true.
Definition I16 := mkNtype 2 true.
Definition I32 := mkNtype 4 true.
Definition I64 := mkNtype 8 true.
(** flatbuffer_object.py:19-20: a float type is given by its width. *)
Definition F32 : nat := 4.
Definition F64 : nat := 8.

(** struct.unpack_from of a little-endian unsigned number of [w] bytes. *)
Definition le_value (l : list N) : N := fold_right (fun b acc => b + 256 * acc) 0 l.
Definition unpack_from (w : nat) (buf : list N) (off : N) : res N :=
  if off + N.of_nat w <=? N.of_nat (length buf)
  then Ok (le_value (firstn w (skipn (N.to_nat off) buf)))
  else Raise StructError.
(** The signed reading of [w] bytes. *)
Definition to_signed (w : nat) (n : N) : Z :=
  if n <? 2 ^ (8 * N.of_nat w - 1) then Z.of_N n else (Z.of_N n - 2 ^ (8 * Z.of_nat w))%Z.
Definition to_number (t : ntype) (n : N) : Z :=
  if nt_signed t then to_signed (nt_width t) n else Z.of_N n.

(** number_types.enforce_number(off, UOffsetTFlags). *)
Definition enforce_uoffset (off : Z) : res N :=
  if ((0 <=? off) && (off <=? 4294967295))%Z then Ok (Z.to_N off) else Raise TypeError.

(** table.Table. *)
Record table := mkTable { t_bytes : list N; t_pos : N }.
(** Table.Get, for the bits of a number. *)
Definition table_get (t : table) (w : nat) (off : Z) : res N :=
  rbind (enforce_uoffset off) (unpack_from w (t_bytes t)).
(** Table.Offset: 0 if the field is absent. *)
Definition table_offset (t : table) (vtable_offset : N) : res N :=
  rbind (table_get t 4 (Z.of_N (t_pos t))) (fun s =>
  let vtable := (Z.of_N (t_pos t) - to_signed 4 s)%Z in
  rbind (table_get t 2 vtable) (fun vtable_end =>
  if vtable_offset <? vtable_end then table_get t 2 (vtable + Z.of_N vtable_offset) else Ok 0)).
(** Table.Indirect. *)
Definition table_indirect (t : table) (off : N) : res N :=
  rbind (enforce_uoffset (Z.of_N off)) (fun off =>
  rmap (N.add off) (unpack_from 4 (t_bytes t) off)).
(** Table.Vector. *)
Definition table_vector (t : table) (off : N) : res N :=
  rbind (enforce_uoffset (Z.of_N off)) (fun off =>
  let off := off + t_pos t in
  rmap (fun x => off + x + 4) (table_get t 4 (Z.of_N off))).
(** Table.VectorLen. *)
Definition table_vector_len (t : table) (off : N) : res N :=
  rbind (enforce_uoffset (Z.of_N off)) (fun off =>
  let off := off + t_pos t in
  rbind (unpack_from 4 (t_bytes t) off) (fun x => unpack_from 4 (t_bytes t) (off + x))).

(** ** FlatBufferObject *)

(** flatbuffer_object.py:41-47. *)
Record fbo := mkFbo { fb_table : table; fb_offset : N; fb_counter : N }.
Definition fbo_new (buf : list N) (offset : option N) : res fbo :=
  rbind (match offset with Some o => Ok o | None => unpack_from 4 buf 0 end) (fun o =>
  rmap (fun p => mkFbo (mkTable buf p) o 4) (enforce_uoffset (Z.of_N o))).

(** The common shape of the read methods: find the field, read it if present. *)
Definition read_present {A} (o : fbo) (position : N) (read : N -> res A) (default : A) : res A :=
  rbind (table_offset (fb_table o) position) (fun pos_offset =>
  if pos_offset =? 0 then Ok default else read pos_offset).
(** self._counter += 2 * n. *)
Definition bump (o : fbo) (n : N) : fbo := mkFbo (fb_table o) (fb_offset o) (fb_counter o + 2 * n).
(** read_init_...: read at the counter, then move it by one field. *)
Definition read_init {A} (read : fbo -> N -> res A) (o : fbo) : res (A * fbo) :=
  rmap (fun v => (v, bump o 1)) (read o (fb_counter o)).

(** flatbuffer_object.py:53-58. *)
Definition read_int (t : ntype) (default : option Z) (o : fbo) (position : N) : res (option Z) :=
  read_present o position (fun pos_offset =>
    rmap (fun n => Some (to_number t n))
      (table_get (fb_table o) (nt_width t) (Z.of_N (pos_offset + fb_offset o)))) default.
(** flatbuffer_object.py:60-65. *)
Definition read_float (w : nat) (default : option N) (o : fbo) (position : N) : res (option N) :=
  read_present o position (fun pos_offset =>
    rmap Some (table_get (fb_table o) w (Z.of_N (pos_offset + fb_offset o)))) default.
(** flatbuffer_object.py:67-78. *)
Definition read_int_enum {A} (t : ntype) (enum : Z -> res A) (default : option A)
    (o : fbo) (position : N) : res (option A) :=
  read_present o position (fun pos_offset =>
    rbind (table_get (fb_table o) (nt_width t) (Z.of_N (pos_offset + fb_offset o))) (fun n =>
    rmap Some (enum (to_number t n)))) default.
(** flatbuffer_object.py:104-110. A class is its constructor. *)
Definition read_object {A} (cls : list N -> N -> res A) (default : option A)
    (o : fbo) (position : N) : res (option A) :=
  read_present o position (fun pos_offset =>
    rbind (table_indirect (fb_table o) (pos_offset + fb_offset o)) (fun val_offset =>
    rmap Some (cls (t_bytes (fb_table o)) val_offset))) default.
(** flatbuffer_object.py:119-129. *)
Fixpoint read_items {A} (cls : list N -> N -> res A) (t : table) (array_offset : N) (n : nat) : res (list A) :=
  match n with
  | O => Ok []
  | S n' =>
      rbind (table_indirect t array_offset) (fun val_offset =>
      rbind (cls (t_bytes t) val_offset) (fun x =>
      rmap (cons x) (read_items cls t (array_offset + 4) n')))
  end.
Definition read_object_array {A} (cls : list N -> N -> res A) (o : fbo) (position : N) : res (list A) :=
  read_present o position (fun pos_offset =>
    rbind (table_vector (fb_table o) pos_offset) (fun array_offset =>
    rbind (table_vector_len (fb_table o) pos_offset) (fun array_len =>
    read_items cls (fb_table o) array_offset (N.to_nat array_len)))) [].
(** flatbuffer_object.py:138-146, up to the call of decode: the bytes of the string. An
    absent string has no bytes to decode: None and str have no method decode. *)
Definition read_string (o : fbo) (position : N) : res (list N) :=
  rbind (read_present o position (fun pos_offset =>
    rbind (table_vector (fb_table o) pos_offset) (fun array_offset =>
    rmap (fun array_len =>
      Some (firstn (N.to_nat array_len) (skipn (N.to_nat array_offset) (t_bytes (fb_table o)))))
      (table_vector_len (fb_table o) pos_offset))) None)
    (fun s => match s with Some b => Ok b | None => Raise AttributeError end).

(** flatbuffer_object.py:80-102, 112-117, 131-136, 148-152. *)
Definition read_init_int t default := read_init (read_int t default).
Definition read_init_float w default := read_init (read_float w default).
Definition read_init_int_enum {A} t (enum : Z -> res A) default := read_init (read_int_enum t enum default).
Definition read_init_object {A} (cls : list N -> N -> res A) default := read_init (read_object cls default).
Definition read_init_object_array {A} (cls : list N -> N -> res A) := read_init (read_object_array cls).
Definition read_init_string := read_init read_string.
(** flatbuffer_object.py:164-166. *)
Definition read_init_padding (size : N) (o : fbo) : fbo := bump o size.

(** bool(x), as an enum. *)
Definition to_bool (z : Z) : res bool := Ok (negb (z =? 0)%Z).

(** flatbuffer_object.py:169-176, and 154-162. *)
Record vec3f := mkVec3 { v_x : option N; v_y : option N; v_z : option N }.
Definition vec3f_new (buf : list N) (offset : N) : res vec3f :=
  rbind (fbo_new buf (Some offset)) (fun o =>
  rbind (read_init_float F32 None o) (fun '(x, o) =>
  rbind (read_init_float F32 None o) (fun '(y, o) =>
  rmap (fun '(z, o) => mkVec3 x y z) (read_init_float F32 None o)))).
Definition read_init_vec3f default := read_init_object vec3f_new default.
