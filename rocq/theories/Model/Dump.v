(** data/fbs/flatbuffer_object.py, [dump_binary], and the objects it can be called on. *)
From Coq Require Import NArith List.
From Verif Require Import Base.Word Model.Flatbuf.
Import ListNotations.

(** flatbuffer_object.py:49-51; the stream is what has been written to it. *)
Definition dump_binary (o : fbo) (stream : list N) : list N := stream ++ t_bytes (fb_table o).
(** flatbuffer_object.py:41-47, as a class given to read_object and read_object_array. *)
Definition nested (buf : list N) (offset : N) : res fbo := fbo_new buf (Some offset).
