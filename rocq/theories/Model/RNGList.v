(** numba_pokemon_prngs/rng_list.py. A class built by [build_rnglist] wraps a generator
    object with state in [S] and method [nxt] (next_function). *)
From Coq Require Import NArith ZArith List Bool.
From Verif Require Import Base.Word.
Import ListNotations.
Open Scope N_scope.

(** rng_list.py:41-43: the assertion on [size] (Python evaluated without -O). *)
Definition size_accepted (size : Z) : bool :=
  negb (Z.eqb size 0) && Z.eqb (Z.land size (size - 1)) 0.

(** The attributes rng, list, head and pointer. *)
Record rnglist (S : Type) := mk_rl { rl_rng : S; rl_list : list N; rl_head : N; rl_pointer : N }.
Arguments mk_rl {S}. Arguments rl_rng {S}. Arguments rl_list {S}. Arguments rl_head {S}. Arguments rl_pointer {S}.

(** rng_list.py:57-60: head and pointer are uint16 fields under numba, plain ints
    without. *)
Definition idx (m : mode) (v : N) : N := match m with NumPy => v | Numba => w16 v end.

(** Parameters: the mode, the store conversion to [state_type] (of a numba class: 32
    bits), the wrapped [next] and the size. Indices outside the list do not occur
    (see the invariant in Proofs/RNGListProofs.v), so accesses are total here. *)

(** rng_list.py:72-77, [re_init]. *)
Definition rl_fill {S} (cast : N -> N) (nxt : S -> S * N) (size : N) (st : S * list N) : S * list N :=
  fst (N.iter size (fun '(st, i) =>
    let '(rng, l) := st in
    let '(rng, v) := nxt rng in
    ((rng, aset l (N.to_nat i) (cast v)), i + 1)) (st, 0)).
Definition rl_re_init {S} (cast : N -> N) (nxt : S -> S * N) (size : N) (self : rnglist S) : rnglist S :=
  let '(rng, l) := rl_fill cast nxt size (rl_rng self, rl_list self) in
  mk_rl rng l 0 0.
(** rng_list.py:65-70, [__init__]; np.empty leaves any [size] numbers. *)
Definition rl_new {S} (cast : N -> N) (nxt : S -> S * N) (size : N) (junk : list N) (rng : S) : rnglist S :=
  rl_re_init cast nxt size (mk_rl rng junk 0 0).

(** rng_list.py:85-90, [advance_state]. *)
Definition rl_advance_state {S} (m : mode) (cast : N -> N) (nxt : S -> S * N) (size : N) (self : rnglist S) : rnglist S :=
  let '(rng, v) := nxt (rl_rng self) in
  let l := aset (rl_list self) (N.to_nat (rl_head self)) (cast v) in
  let head := idx m (N.land (rl_head self + 1) (size - 1)) in
  mk_rl rng l head head.
(** rng_list.py:79-83, [advance_states]. *)
Definition rl_advance_states {S} (m : mode) (cast : N -> N) (nxt : S -> S * N) (size : N) (self : rnglist S) (adv : N) : rnglist S :=
  N.iter (w32 adv) (rl_advance_state m cast nxt size) self.
(** rng_list.py:92-95, [advance]. *)
Definition rl_advance {S} (m : mode) (size : N) (self : rnglist S) (adv : N) : rnglist S :=
  mk_rl (rl_rng self) (rl_list self) (rl_head self) (idx m (N.land (rl_pointer self + w32 adv) (size - 1))).
(** rng_list.py:97-102, [get_value]: the pointer is stored after the addition and
    again after the mask. *)
Definition rl_get_value {S} (m : mode) (size : N) (self : rnglist S) : rnglist S * N :=
  let result := aget (rl_list self) (N.to_nat (rl_pointer self)) in
  let pointer := idx m (rl_pointer self + 1) in
  let pointer := idx m (N.land pointer (size - 1)) in
  (mk_rl (rl_rng self) (rl_list self) (rl_head self) pointer, result).

(** The public methods as operations. *)
Inductive rl_op := RReInit | RAdvanceStates (adv : N) | RAdvanceState | RAdvance (adv : N) | RGet.
Definition rl_call {S} (m : mode) (cast : N -> N) (nxt : S -> S * N) (size : N) (self : rnglist S) (op : rl_op)
  : rnglist S * outcome :=
  match op with
  | RReInit => (rl_re_init cast nxt size self, ONone)
  | RAdvanceStates adv => (rl_advance_states m cast nxt size self adv, ONone)
  | RAdvanceState => (rl_advance_state m cast nxt size self, ONone)
  | RAdvance adv => (rl_advance m size self adv, ONone)
  | RGet => let '(self, v) := rl_get_value m size self in (self, OVal v)
  end.
Fixpoint rl_calls {S} (m : mode) (cast : N -> N) (nxt : S -> S * N) (size : N) (self : rnglist S) (ops : list rl_op)
  : rnglist S * list outcome :=
  match ops with
  | [] => (self, [])
  | op :: t => let '(self, o) := rl_call m cast nxt size self op in
               let '(self, os) := rl_calls m cast nxt size self t in (self, o :: os)
  end.
