(** numba_pokemon_prngs/xorshift/xorshift128.py. The array attribute [state] is a
    list of four words. *)
From Coq Require Import NArith ZArith List Bool SpecFloat.
From Verif Require Import Base.Word Model.Float.
Import ListNotations.
Open Scope N_scope.

(** xorshift128.py:24-31, [re_init]. *)
Definition xs_re_init (st : list N) (s0 s1 s2 s3 : N) : list N :=
  aset (aset (aset (aset st 0 (w32 s0)) 1 (w32 s1)) 2 (w32 s2)) 3 (w32 s3).
(** xorshift128.py:16-22, [__init__]; np.empty leaves any four words. *)
Definition xs_new (junk : list N) (s0 s1 s2 s3 : N) : list N := xs_re_init junk s0 s1 s2 s3.

(** xorshift128.py:38-52, [next]. Under numba t_val is a 64-bit local that keeps the
    bits shifted out of 32; the casts and the store truncate. *)
Definition xs_next (m : mode) (st : list N) : list N * N :=
  let shl x k := match m with NumPy => shl32 x k | Numba => shl64 x k end in
  let t := w32 (aget st 0) in
  let s := w32 (aget st 3) in
  let t := N.lxor t (shl (w32 t) 11) in
  let t := N.lxor t (N.shiftr (w32 t) 8) in
  let t := N.lxor t (N.lxor (w32 s) (N.shiftr (w32 s) 19)) in
  let st := aset st 0 (aget st 1) in
  let st := aset st 1 (aget st 2) in
  let st := aset st 2 (aget st 3) in
  let st := aset st 3 (w32 t) in
  (st, w32 t).

(** xorshift128.py:33-36, [advance]. *)
Definition xs_advance (m : mode) (st : list N) (adv : N) : list N :=
  N.iter adv (fun st => fst (xs_next m st)) st.

(** xorshift128.py:54-73, [previous]. *)
Definition xs_previous (m : mode) (st : list N) : list N * N :=
  let shl x k := match m with NumPy => shl32 x k | Numba => shl64 x k end in
  let rand := aget st 3 in
  let t := aget st 3 in
  let s := aget st 2 in
  let t := N.lxor t (N.lxor (w32 s) (N.shiftr (w32 s) 19)) in
  let t := N.lxor t (N.shiftr (w32 t) 8) in
  let t := N.lxor t (N.shiftr (w32 t) 16) in
  let t := N.lxor t (shl (w32 t) 11) in
  let t := N.lxor t (shl (w32 t) 22) in
  let st := aset st 3 (aget st 2) in
  let st := aset st 2 (aget st 1) in
  let st := aset st 1 (aget st 0) in
  let st := aset st 0 (w32 t) in
  (st, rand).

(** np.int32(z) and np.uint32(z) of an integer. *)
Definition to_u32 (z : Z) : N := Z.to_N (z mod 4294967296).
Definition to_i32 (z : Z) : Z := ((z + 2147483648) mod 4294967296 - 2147483648)%Z.

(** xorshift128.py:75-83, [next_randrange]. Without numba the difference wraps as an
    int32 and is then reinterpreted; under numba it is an int64 that is truncated. The
    sum is an int64 in both modes. *)
Definition xs_next_randrange (m : mode) (st : list N) (minimum maximum : Z) : list N * res N :=
  let minimum := to_i32 minimum in
  let maximum := to_i32 maximum in
  let diff := match m with
              | NumPy => to_u32 (to_i32 (maximum - minimum))
              | Numba => to_u32 (maximum - minimum)
              end in
  let '(st, r) := xs_next m st in
  (st, rmap (fun q => to_u32 (Z.of_N q + minimum)) (umod m r diff)).

(** xorshift128.py:85-89, [next_rand]. *)
Definition xs_next_rand (m : mode) (st : list N) (maximum : N) : list N * res N :=
  let maximum := w32 maximum in
  let '(st, r) := xs_next m st in (st, umod m r maximum).

(** xorshift128.py:91-99, [next_alternate_rand]: [np.int32(-0x7FFFFFFF) -
    np.uint32(1)] is the int64 -2^31. [maximum] is not cast. *)
Definition xs_next_alternate_rand (m : mode) (st : list N) (maximum : N) : list N * res N :=
  let '(st, r) := xs_next_randrange m st (-2147483647 - 1) 2147483647 in
  (st, rbind r (fun v => umod m v maximum)).

(** xorshift128.py:101-112, [next_float_randrange] on binary32 bounds. The quotient
    and the first product are binary32; the literal 1 makes the difference, and so
    the second product and the sum, binary64 in both modes. *)
Definition xs_next_float_randrange (m : mode) (st : list N) (minimum maximum : spec_float)
  : list N * spec_float :=
  let '(st, r) := xs_next m st in
  let rand_float := f32_div (f32_of_N (N.land r 0x7FFFFF)) (f32_of_N 0x7FFFFF) in
  (st, f64_add (f64_of_f32 (f32_mul rand_float minimum))
               (f64_mul (f64_sub (f64_of_N 1) (f64_of_f32 rand_float)) (f64_of_f32 maximum))).

(** The public methods as operations on one object; the float range is apart, as it
    returns a float. *)
Inductive xs_op :=
| XNext | XPrev | XAdvance (adv : N) | XRange (minimum maximum : Z) | XRand (maximum : N)
| XAlt (maximum : N) | XReInit (s0 s1 s2 s3 : N).
Definition xs_call (m : mode) (st : list N) (op : xs_op) : list N * outcome :=
  match op with
  | XNext => let '(st, r) := xs_next m st in (st, OVal r)
  | XPrev => let '(st, r) := xs_previous m st in (st, OVal r)
  | XAdvance adv => (xs_advance m st adv, ONone)
  | XRange a b => let '(st, r) := xs_next_randrange m st a b in (st, of_res r)
  | XRand mx => let '(st, r) := xs_next_rand m st mx in (st, of_res r)
  | XAlt mx => let '(st, r) := xs_next_alternate_rand m st mx in (st, of_res r)
  | XReInit a b c d => (xs_re_init st a b c d, ONone)
  end.
Fixpoint xs_calls (m : mode) (st : list N) (ops : list xs_op) : list N * list outcome :=
  match ops with
  | [] => (st, [])
  | op :: t => let '(st, o) := xs_call m st op in
               let '(st, os) := xs_calls m st t in (st, o :: os)
  end.
