(** numba_pokemon_prngs/rng_list.py: several lists built on one generator object.
    [__init__] (lines 65-70) keeps a reference to the generator that it is given
    (a reference too under numba, where the field has the instance type of the jitclass),
    so all of them, and the caller, draw from the same state. *)
From Coq Require Import NArith List.
From Verif Require Import Base.Word Model.RNGList.
Import ListNotations.
Open Scope N_scope.

(** One list without its generator: the class arguments of [build_rnglist] that matter
    (rng_list.py:37-39, the conversion on storing and the size) and the attributes of
    rng_list.py:54-61 other than rng. *)
Record shared_list := mk_sl { sl_cast : N -> N; sl_size : N; sl_list : list N; sl_head : N; sl_pointer : N }.
(** The generator and the lists built on it so far, in the order of construction. *)
Definition sharing (S : Type) := (S * list shared_list)%type.

(** rng_list.py:65-102: a method runs on the attributes of the list and the current
    state of the generator behind self.rng, and leaves the new state there. *)
Definition sl_open {S} (rng : S) (l : shared_list) : rnglist S := mk_rl rng (sl_list l) (sl_head l) (sl_pointer l).
Definition sl_close {S} (l : shared_list) (self : rnglist S) : shared_list :=
  mk_sl (sl_cast l) (sl_size l) (rl_list self) (rl_head self) (rl_pointer self).
Fixpoint put {A} (l : list A) (k : nat) (v : A) : list A :=
  match l, k with
  | [], _ => []
  | _ :: t, O => v :: t
  | x :: t, Datatypes.S k => x :: put t k v
  end.

(** What a program does: call the generator's own method (the [next_function] of
    rng_list.py:44-51), build one more list (lines 65-70), call a method of list number k
    (lines 72-102). A call on a list that was not built yet does nothing here. *)
Inductive sh_op := ShNext | ShNew (cast : N -> N) (size : N) (junk : list N) | ShCall (k : nat) (op : rl_op).
Definition sh_call {S} (m : mode) (nxt : S -> S * N) (st : sharing S) (op : sh_op) : sharing S * outcome :=
  let '(rng, ls) := st in
  match op with
  | ShNext => let '(rng, v) := nxt rng in ((rng, ls), OVal v)
  | ShNew cast size junk =>
      let self := rl_new cast nxt size junk rng in
      ((rl_rng self, ls ++ [sl_close (mk_sl cast size junk 0 0) self]), ONone)
  | ShCall k op =>
      match nth_error ls k with
      | None => (st, ONone)
      | Some l => let '(self, o) := rl_call m (sl_cast l) nxt (sl_size l) (sl_open rng l) op in
                  ((rl_rng self, put ls k (sl_close l self)), o)
      end
  end.
Fixpoint sh_calls {S} (m : mode) (nxt : S -> S * N) (st : sharing S) (ops : list sh_op) : sharing S * list outcome :=
  match ops with
  | [] => (st, [])
  | op :: t => let '(st, o) := sh_call m nxt st op in
               let '(st, os) := sh_calls m nxt st t in (st, o :: os)
  end.
