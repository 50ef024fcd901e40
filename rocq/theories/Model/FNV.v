(** numba_pokemon_prngs/fnv.py. A string is the list of its characters' code points. *)
From Coq Require Import NArith List.
From Verif Require Import Base.Word.
Import ListNotations.
Open Scope N_scope.

(** fnv.py:10-17, [fnv1_64]. *)
Definition fnv1_64 (inp : list N) : N :=
  fold_left (fun hash c =>
    let hash := w64 (hash * 0x00000100000001B3) in
    N.lxor hash (w64 c)) inp 0xCBF29CE484222645.
(** fnv.py:20-27, [fnv1a_64]. *)
Definition fnv1a_64 (inp : list N) : N :=
  fold_left (fun hash c =>
    let hash := N.lxor hash (w64 c) in
    w64 (hash * 0x00000100000001B3)) inp 0xCBF29CE484222645.
