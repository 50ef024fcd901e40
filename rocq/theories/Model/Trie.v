(** The bytes of a file as a trie of 8-byte words, so that large files can be read at any
    offset by evaluation. Used for the resource files of Legends Arceus. *)
From Coq Require Import NArith List Strings.Byte.
Import ListNotations.
Open Scope N_scope.

Inductive word := W (b0 b1 b2 b3 b4 b5 b6 b7 : byte).
Inductive trie := E | L (w : word) | T (w : word) (l r : trie).

(** The word of a number, found by its bits from the lowest. *)
Fixpoint word_at (t : trie) (p : positive) : word :=
  match t, p with
  | L w, xH => w
  | T w _ _, xH => w
  | T _ l _, xO q => word_at l q
  | T _ _ r, xI q => word_at r q
  | _, _ => W x00 x00 x00 x00 x00 x00 x00 x00
  end.
Definition byte_in (w : word) (a b c : bool) : byte :=
  match w with W b0 b1 b2 b3 b4 b5 b6 b7 =>
    if c then if b then if a then b7 else b6 else if a then b5 else b4
    else if b then if a then b3 else b2 else if a then b1 else b0
  end.
(** The byte at an offset: byte [i mod 8] of word [i / 8 + 1]. *)
Definition byte_at (t : trie) (i : N) : N :=
  Byte.to_N (byte_in (word_at t (N.succ_pos (N.div2 (N.div2 (N.div2 i)))))
    (N.odd i) (N.odd (N.div2 i)) (N.odd (N.div2 (N.div2 i)))).
(** The first [size] bytes. *)
Definition file_bytes (t : trie) (size : N) : list N :=
  map (fun i => byte_at t (N.of_nat i)) (seq 0 (N.to_nat size)).
