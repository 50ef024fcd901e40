(** numba_pokemon_prngs/xorshift/xoroshiro128plus.py. The array attribute [state] is a
    list of two 64-bit words. *)
From Coq Require Import NArith List Bool.
From Verif Require Import Base.Word Model.Util.
Import ListNotations.
Open Scope N_scope.

(** rotate_left_u64(v, 24), rotate_left_u64(v, 37), rotate_right_u64(v, ...) of
    util.py:32-45: these counts are in the defined range of both modes. *)
Definition rotl64 (val count : N) : N := rotl64_raw (w64 val) count (64 - count).
Definition rotr64 (val count : N) : N := rotr64_raw (w64 val) count (64 - count).

(** ** Xoroshiro128PlusRejection *)
(** xoroshiro128plus.py:52-56, [re_init]. *)
Definition xo_re_init (st : list N) (s0 s1 : N) : list N := aset (aset st 0 (w64 s0)) 1 (w64 s1).
(** xoroshiro128plus.py:46-50, [__init__], and the default of seed_1. *)
Definition xo_new (junk : list N) (s0 s1 : N) : list N := xo_re_init junk s0 s1.
Definition xo_seed1_default : N := 0x82A2B175229D6A5B.

(** xoroshiro128plus.py:60-69: the new state, shared with the SplitMix class (132-139). *)
Definition xo_step (st : list N) : list N :=
  let s0 := aget st 0 in
  let s1 := aget st 1 in
  let s1 := N.lxor s1 s0 in
  let st := aset st 0 (N.lxor (N.lxor (rotl64 s0 24) s1) (shl64 s1 16)) in
  aset st 1 (rotl64 s1 37).
(** xoroshiro128plus.py:60-69, [next]. *)
Definition xo_next (st : list N) : list N * N :=
  (xo_step st, w64 (aget st 0 + aget st 1)).

(** xoroshiro128plus.py:23-26, [advance] of the parent class, on each [next]. *)
Definition xo_advance (st : list N) (adv : N) : list N := N.iter adv (fun st => fst (xo_next st)) st.

(** xoroshiro128plus.py:71-79: the previous state, shared with 143-151. *)
Definition xo_back (st : list N) : list N :=
  let s1 := rotr64 (aget st 1) 37 in
  let s0 := rotr64 (N.lxor (N.lxor (aget st 0) s1) (shl64 s1 16)) 24 in
  let s1 := N.lxor s1 s0 in
  aset (aset st 0 s0) 1 s1.
(** xoroshiro128plus.py:71-81, [previous]. *)
Definition xo_previous (st : list N) : list N * N :=
  let st := xo_back st in (st, w64 (aget st 0 + aget st 1)).

(** xoroshiro128plus.py:90-100, [bit_mask]. Under numba [val - 1] is 64-bit. *)
Definition xo_bit_mask (m : mode) (val : N) : N :=
  let val := w32 val in
  let val := match m with NumPy => sub32 val 1 | Numba => sub64 val 1 end in
  let val := N.lor val (N.shiftr val 1) in
  let val := N.lor val (N.shiftr val 2) in
  let val := N.lor val (N.shiftr val 4) in
  let val := N.lor val (N.shiftr val 8) in
  N.lor val (N.shiftr val 16).

(** xoroshiro128plus.py:83-88, [next_rand]; the while loop is cut off after [fuel]
    repetitions. *)
Fixpoint xo_reject (fuel : nat) (mask maximum : N) (st : list N) (result : N) : res (list N * N) :=
  if maximum <=? result then
    match fuel with
    | O => Raise OutOfFuel
    | S f => let '(st, r) := xo_next st in xo_reject f mask maximum st (N.land r mask)
    end
  else Ok (st, result).
Definition xo_next_rand (fuel : nat) (m : mode) (st : list N) (maximum : N) : res (list N * N) :=
  let mask := xo_bit_mask m maximum in
  let '(st, r) := xo_next st in
  xo_reject fuel mask maximum st (N.land r mask).

(** ** SplitMixXoroshiro128Plus *)
(** xoroshiro128plus.py:120-130, [splitmix]. *)
Definition splitmix (seed state : N) : N :=
  let seed := w64 seed in
  let state := w64 state in
  let seed := w64 (seed + state) in
  let seed := w64 (0xBF58476D1CE4E5B9 * N.lxor seed (N.shiftr seed 30)) in
  let seed := w64 (0x94D049BB133111EB * N.lxor seed (N.shiftr seed 27)) in
  w64 (N.lxor seed (N.shiftr seed 31)).

(** xoroshiro128plus.py:112-116, [re_init]. *)
Definition sm_re_init (st : list N) (seed : N) : list N :=
  let seed := w64 seed in
  let st := aset st 0 (splitmix seed 0x9E3779B97F4A7C15) in
  aset st 1 (splitmix seed 0x3C6EF372FE94F82A).
(** xoroshiro128plus.py:108-110, [__init__]. *)
Definition sm_new (junk : list N) (seed : N) : list N := sm_re_init junk seed.

(** xoroshiro128plus.py:132-141, [next]. *)
Definition sm_next (st : list N) : list N * N :=
  (xo_step st, w32 (N.shiftr (w64 (aget st 0 + aget st 1)) 32)).
(** xoroshiro128plus.py:143-153, [previous]. *)
Definition sm_previous (st : list N) : list N * N :=
  let st := xo_back st in (st, w32 (N.shiftr (w64 (aget st 0 + aget st 1)) 32)).
(** xoroshiro128plus.py:23-26, [advance]. *)
Definition sm_advance (st : list N) (adv : N) : list N := N.iter adv (fun st => fst (sm_next st)) st.
(** xoroshiro128plus.py:155-156, [next_rand]; [maximum] is not cast. *)
Definition sm_next_rand (m : mode) (st : list N) (maximum : N) : list N * res N :=
  let '(st, r) := sm_next st in (st, umod m r maximum).

(** The public methods of the two classes as operations on one object. [next_rand] of
    the first class carries the fuel of its loop; when that runs out the state is
    left alone. *)
Inductive xo_op :=
| ONext | OPrev | OAdvance (adv : N) | ORand (fuel : nat) (maximum : N) | OReInit (s0 s1 : N).
Definition xo_call (m : mode) (st : list N) (op : xo_op) : list N * outcome :=
  match op with
  | ONext => let '(st, r) := xo_next st in (st, OVal r)
  | OPrev => let '(st, r) := xo_previous st in (st, OVal r)
  | OAdvance adv => (xo_advance st adv, ONone)
  | ORand fuel mx => match xo_next_rand fuel m st mx with
                     | Ok (st, r) => (st, OVal r)
                     | Raise e => (st, OExn e)
                     end
  | OReInit s0 s1 => (xo_re_init st s0 s1, ONone)
  end.
Fixpoint xo_calls (m : mode) (st : list N) (ops : list xo_op) : list N * list outcome :=
  match ops with
  | [] => (st, [])
  | op :: t => let '(st, o) := xo_call m st op in
               let '(st, os) := xo_calls m st t in (st, o :: os)
  end.
Inductive sm_op :=
| SmNext | SmPrev | SmAdvance (adv : N) | SmRand (maximum : N) | SmReInit (seed : N).
Definition sm_call (m : mode) (st : list N) (op : sm_op) : list N * outcome :=
  match op with
  | SmNext => let '(st, r) := sm_next st in (st, OVal r)
  | SmPrev => let '(st, r) := sm_previous st in (st, OVal r)
  | SmAdvance adv => (sm_advance st adv, ONone)
  | SmRand mx => let '(st, r) := sm_next_rand m st mx in (st, of_res r)
  | SmReInit seed => (sm_re_init st seed, ONone)
  end.
Fixpoint sm_calls (m : mode) (st : list N) (ops : list sm_op) : list N * list outcome :=
  match ops with
  | [] => (st, [])
  | op :: t => let '(st, o) := sm_call m st op in
               let '(st, os) := sm_calls m st t in (st, o :: os)
  end.
