(** Machine words as [N], exceptions as values, execution modes.
    Library only: nothing here models a particular file of the repository. *)
From Coq Require Import NArith ZArith List Bool Lia.
Import ListNotations.
Open Scope N_scope.

(** The two ways the package runs: plain Python on NumPy scalars, or compiled
    by numba. See DESIGN.md for the numeric rules of each. *)
Inductive mode := NumPy | Numba.

(** Exceptions that the modelled code can raise. [OutOfFuel] is not a Python
    exception: it marks a loop that was cut off by the model. [UndefinedShift] marks
    compiled code that shifts a 64-bit register by 64 or more, whose result LLVM
    leaves undefined. *)
Inductive exn :=
| IndexError | ZeroDivisionError | ValueError | NotImplementedError
| AssertionError | AttributeError | TypeError | KeyError | EOFError
| UnpicklingError | UnboundLocalError | FileNotFoundError | StructError
| OverflowError | OutOfFuel | UndefinedShift.

Inductive res (A : Type) := Ok (a : A) | Raise (e : exn).
Arguments Ok {A} a.
Arguments Raise {A} e.

Definition rmap {A B} (f : A -> B) (r : res A) : res B :=
  match r with Ok a => Ok (f a) | Raise e => Raise e end.
Definition rbind {A B} (r : res A) (f : A -> res B) : res B :=
  match r with Ok a => f a | Raise e => Raise e end.

(** np.uint8(x), np.uint16(x), np.uint32(x), np.uint64(x) on a non-negative x. *)
Definition w8  (x : N) : N := x mod 256.
Definition w16 (x : N) : N := x mod 65536.
Definition w32 (x : N) : N := x mod 4294967296.
Definition w64 (x : N) : N := x mod 18446744073709551616.

(** Fixed-width subtraction and negation. *)
Definition sub8  (a b : N) : N := w8 (a + (256 - w8 b)).
Definition sub16 (a b : N) : N := w16 (a + (65536 - w16 b)).
Definition sub32 (a b : N) : N := w32 (a + (4294967296 - w32 b)).
Definition sub64 (a b : N) : N := w64 (a + (18446744073709551616 - w64 b)).
Definition neg32 (a : N) : N := sub32 0 a.
Definition neg64 (a : N) : N := sub64 0 a.
Definition not32 (a : N) : N := N.lxor a 4294967295.
Definition not64 (a : N) : N := N.lxor a 18446744073709551615.

(** Shifts of a value held in a w-bit register. *)
Definition shl32 (x k : N) : N := w32 (N.shiftl x k).
Definition shl64 (x k : N) : N := w64 (N.shiftl x k).

(** Unsigned integer [%] and [//] in each mode. *)
Definition umod (m : mode) (a b : N) : res N :=
  if b =? 0 then match m with NumPy => Ok 0 | Numba => Raise ZeroDivisionError end
  else Ok (a mod b).
Definition udiv (m : mode) (a b : N) : res N :=
  if b =? 0 then match m with NumPy => Ok 0 | Numba => Raise ZeroDivisionError end
  else Ok (a / b).

(** Arrays as lists. *)
Definition aget (l : list N) (i : nat) : N := nth i l 0.
Fixpoint aset {A} (l : list A) (i : nat) (v : A) : list A :=
  match l, i with
  | [], _ => []
  | _ :: t, O => v :: t
  | h :: t, S j => h :: aset t j v
  end.

(** [for i in range(lo, lo+n): s = body i s]. *)
Fixpoint for_range {S} (n : nat) (lo : nat) (body : nat -> S -> S) (s : S) : S :=
  match n with
  | O => s
  | Datatypes.S n' => for_range n' (Datatypes.S lo) body (body lo s)
  end.

(** [while cond: s = body s], cut off after [fuel] iterations. *)
Fixpoint while_loop {S} (fuel : nat) (cond : S -> bool) (body : S -> S) (s : S) : res S :=
  if cond s then
    match fuel with
    | O => Raise OutOfFuel
    | Datatypes.S f => while_loop f cond body (body s)
    end
  else Ok s.

(** What a call returns: nothing, a value, or an exception. *)
Inductive outcome := ONone | OVal (v : N) | OExn (e : exn).
Definition of_res (r : res N) : outcome :=
  match r with Ok v => OVal v | Raise e => OExn e end.

(** Array accesses that fail outside the bounds. *)
Definition agetr (l : list N) (i : nat) : res N :=
  match nth_error l i with Some v => Ok v | None => Raise IndexError end.
Definition asetr {A} (l : list A) (i : nat) (v : A) : res (list A) :=
  if (i <? length l)%nat then Ok (aset l i v) else Raise IndexError.
Fixpoint for_range_r {S} (n : nat) (lo : nat) (body : nat -> S -> res S) (s : S) : res S :=
  match n with
  | O => Ok s
  | Datatypes.S n' => rbind (body lo s) (for_range_r n' (Datatypes.S lo) body)
  end.
