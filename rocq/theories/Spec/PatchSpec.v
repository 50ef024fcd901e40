(** What array types stand for, independent of how the package makes them. *)
From Coq Require Import NArith List.
From Verif Require Import Model.Patch.
Import ListNotations.
Open Scope N_scope.

(** A type that elements of an array can have: a number or a record of whole bytes. *)
Definition element (t : ntype) (bytes : N) : Prop :=
  match t with
  | Other _ (Some b) => b = 8 * bytes
  | Record_ _ itemsize _ => itemsize = bytes
  | _ => False
  end.

(** [holds t dims leaf]: an object of type [t] is a block with these dimensions, outermost
    first, of elements of type [leaf]. *)
Inductive holds : ntype -> list N -> ntype -> Prop :=
| holds_element t bytes : element t bytes -> holds t [] t
| holds_nested name t shape mutable aligned dims leaf :
    holds t dims leaf -> holds (NestedArray name t shape mutable aligned) (shape ++ dims) leaf.

(** The number of elements of a block. *)
Definition elements (dims : list N) : N := fold_right N.mul 1 dims.

(** NestedArray(NestedArray(...NestedArray(leaf, sn)..., s2), s1), for [s1; s2; ...; sn]. *)
Fixpoint tower (leaf : ntype) (shapes : list (list N)) : Base.Word.res ntype :=
  match shapes with
  | [] => Base.Word.Ok leaf
  | s :: rest => Base.Word.rbind (tower leaf rest) (fun t => new_nested t s)
  end.
