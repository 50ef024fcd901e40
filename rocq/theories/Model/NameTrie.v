(** The names of encounter_table_names.json as a trie, with the dict they stand for. *)
From Coq Require Import NArith List Strings.Byte.
From Verif Require Import Model.Trie.
Import ListNotations.
Open Scope N_scope.

(** [C c key sub next]: a character, the key of the name that ends here if there is one, the
    names that go on, the names with another character instead. A key is eight bytes,
    the lowest first. *)
Inductive name_trie := O | C (c : byte) (key : option word) (sub next : name_trie).
Definition word_number (w : word) : N :=
  match w with W b0 b1 b2 b3 b4 b5 b6 b7 =>
    fold_right (fun b n => Byte.to_N b + 256 * n) 0 [b0; b1; b2; b3; b4; b5; b6; b7]
  end.
(** The items of the dict, a name as its code points. *)
Fixpoint items (prefix : list N) (t : name_trie) : list (N * list N) :=
  match t with
  | O => []
  | C c key sub next =>
      let name := prefix ++ [Byte.to_N c] in
      match key with Some k => [(word_number k, name)] | None => [] end ++ items name sub ++ items prefix next
  end.
