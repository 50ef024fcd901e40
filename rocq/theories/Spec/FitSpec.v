(** Specification for C93: the widths of the integers that the signatures promise. *)
From Coq Require Import NArith List.
From Verif Require Import Base.Word Model.LcrngObject Model.MT Model.SFMT Model.TinyMT Model.Xorshift Model.Xoroshiro.
Import ListNotations.
Open Scope N_scope.

(** An outcome fits w bits when it is not an integer or is below 2^w. *)
Definition fits (w : N) (o : outcome) : Prop := match o with OVal v => v < 2^w | _ => True end.
(** One outcome for each call, fitting the width of that call. *)
Definition each_fits {O} (width : O -> N) (ops : list O) (outs : list outcome) : Prop :=
  Forall2 (fun op o => fits (width op) o) ops outs.

(** lcrng32.py:39-73: np.uint32 but np.uint16 for next_u16, next_rand and const_rand's function. *)
Definition lcrng32_width (op : lcrng_op) : N :=
  match op with LHalf | LRand _ | LConstRand _ => 16 | _ => 32 end.
(** lcrng64.py:35-69: np.uint64 but np.uint32 for next_u32, next_rand and const_rand's function. *)
Definition lcrng64_width (op : lcrng_op) : N :=
  match op with LHalf | LRand _ | LConstRand _ => 32 | _ => 64 end.
(** tinymt.py:55, 75, 84, 89: np.uint32; with numba next and temper keep a carry (C20). *)
Definition tiny_width (m : mode) (op : tiny_op) : N :=
  match m, op with Numba, (TNext | TTemper) => 33 | _, _ => 32 end.
(** xoroshiro128plus.py:60, 71, 83: np.uint64, and np.uint32 for next_rand, whose argument
    is not cast: only an np.uint32, or 2^32 itself, is bound to give one back. *)
Definition xo_width (op : xo_op) : N :=
  match op with ORand _ mx => if mx <=? 2^32 then 32 else 64 | _ => 64 end.
