(** numba_pokemon_prngs/mersenne_twister/tinymt.py. The array attribute [state] is a
    list of four words. *)
From Coq Require Import NArith List Bool.
From Verif Require Import Base.Word.
Import ListNotations.
Open Scope N_scope.

(** tinymt.py:60-73, [shuffle]. Without numba x_val and y_val are 32-bit scalars, so
    [x_val << 1] drops bit 32; under numba they are 64-bit and only the stores into
    the array truncate. The products are by 0 or 1 and cannot overflow. *)
Definition tiny_shuffle (m : mode) (st : list N) : list N :=
  let shl x k := match m with NumPy => shl32 x k | Numba => shl64 x k end in
  let y := aget st 3 in
  let x := N.lxor (N.lxor (N.land (aget st 0) 0x7FFFFFFF) (aget st 1)) (aget st 2) in
  let x := N.lxor x (shl x 1) in
  let y := N.lxor y (N.lxor (N.shiftr y 1) x) in
  let st := aset st 0 (aget st 1) in
  let st := aset st 1 (w32 (N.lxor (aget st 2) (N.land y 1 * 0x8F7011EE))) in
  let st := aset st 2 (w32 (N.lxor (N.lxor x (shl y 10)) (N.land y 1 * 0xFC78FF1F))) in
  aset st 3 (w32 y).

(** tinymt.py:75-82, [temper]. Without numba the sum wraps at 32 bits; under numba it
    is a 64-bit sum and nothing truncates it. *)
Definition tiny_temper (m : mode) (st : list N) : N :=
  let t0 := aget st 3 in
  let sum := aget st 0 + N.shiftr (aget st 2) 8 in
  let t1 := match m with NumPy => w32 sum | Numba => w64 sum end in
  let t0 := N.lxor t0 t1 in
  N.lxor t0 (N.land t1 1 * 0x3793FDFF).

(** tinymt.py:22-48, [re_init]. *)
Definition tiny_init_step (i : nat) (st : list N) : list N :=
  let prev := aget st (Nat.land (i - 1) 3) in
  aset st (Nat.land i 3)
    (N.lxor (aget st (Nat.land i 3))
       (w32 (0x6C078965 * N.lxor prev (N.shiftr prev 30) + N.of_nat i))).
Definition tiny_re_init (m : mode) (st : list N) (seed : N) : list N :=
  let st := aset st 0 (w32 seed) in
  let st := aset st 1 0x8F7011EE in
  let st := aset st 2 0xFC78FF1F in
  let st := aset st 3 0x3793FDFF in
  let st := for_range 7 1 tiny_init_step st in
  let st :=
    if (N.land (aget st 0) 0x7FFFFFFF =? 0) && (aget st 1 =? 0) && (aget st 2 =? 0) && (aget st 3 =? 0)
    then aset (aset (aset (aset st 0 84) 1 73) 2 78) 3 89
    else st in
  for_range 8 0 (fun _ => tiny_shuffle m) st.

(** tinymt.py:17-20, [__init__]; np.empty leaves any four words. *)
Definition tiny_new (m : mode) (junk : list N) (seed : N) : list N := tiny_re_init m junk seed.

(** tinymt.py:50-53, [advance]. *)
Definition tiny_advance (m : mode) (st : list N) (adv : N) : list N := N.iter adv (tiny_shuffle m) st.

(** tinymt.py:55-58, [next]. *)
Definition tiny_next (m : mode) (st : list N) : list N * N :=
  let st := tiny_shuffle m st in (st, tiny_temper m st).

(** tinymt.py:84-87, [next_rand]. *)
Definition tiny_next_rand (m : mode) (st : list N) (maximum : N) : list N * N :=
  let '(st, r) := tiny_next m st in
  (st, w32 (N.shiftr (w64 (w64 r * w64 maximum)) 32)).

(** tinymt.py:89-91, [next_rand_mod]. *)
Definition tiny_next_rand_mod (m : mode) (st : list N) (maximum : N) : list N * res N :=
  let '(st, r) := tiny_next m st in (st, umod m r (w32 maximum)).

(** The public methods as operations on one object. *)
Inductive tiny_op :=
| TNext | TTemper | TShuffle | TAdvance (adv : N) | TRand (maximum : N) | TRandMod (maximum : N)
| TReInit (seed : N).
Definition tiny_call (m : mode) (st : list N) (op : tiny_op) : list N * outcome :=
  match op with
  | TNext => let '(st, r) := tiny_next m st in (st, OVal r)
  | TTemper => (st, OVal (tiny_temper m st))
  | TShuffle => (tiny_shuffle m st, ONone)
  | TAdvance adv => (tiny_advance m st adv, ONone)
  | TRand mx => let '(st, r) := tiny_next_rand m st mx in (st, OVal r)
  | TRandMod mx => let '(st, r) := tiny_next_rand_mod m st mx in (st, of_res r)
  | TReInit seed => (tiny_re_init m st seed, ONone)
  end.
Fixpoint tiny_calls (m : mode) (st : list N) (ops : list tiny_op) : list N * list outcome :=
  match ops with
  | [] => (st, [])
  | op :: t => let '(st, o) := tiny_call m st op in
               let '(st, os) := tiny_calls m st t in (st, o :: os)
  end.
