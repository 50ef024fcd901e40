(** The FlatBuffer objects that a user can hold after reading a file. *)
From Coq Require Import NArith List.
From Verif Require Import Base.Word Model.Flatbuf Model.Dump.

(** The root object of the file, an object that has read some of its fields or skipped some, and
    the objects in the fields of another. *)
Inductive object_of (file : list N) : fbo -> Prop :=
| root o : fbo_new file None = Ok o -> object_of file o
| has_read A (read : fbo -> N -> res A) o v o' :
    object_of file o -> read_init read o = Ok (v, o') -> object_of file o'
| has_skipped n o : object_of file o -> object_of file (read_init_padding n o)
| in_field o position default o' :
    object_of file o -> (forall d, default = Some d -> object_of file d) ->
    read_object nested default o position = Ok (Some o') -> object_of file o'
| in_array o position l o' :
    object_of file o -> read_object_array nested o position = Ok l -> In o' l -> object_of file o'.
