(** Model of numba_pokemon_prngs/mersenne_twister/mt.py. *)
From Coq Require Import NArith List.
From Verif Require Import Base.Word.
Import ListNotations.
Open Scope N_scope.

(** mt.py:18-19: the fields. [mt_state] is a uint32 array, [mt_index] a uint16. *)
Record mt := mkMT { mt_state : list N; mt_index : N }.

(** mt.py:7 *)
Definition MAG02 (b : N) : N := if b =? 0 then 0 else 0x9908B0DF.

(** mt.py:34-36: one step of the initialisation. *)
Definition mt_init_word (seed : N) (i : nat) : N :=
  w32 (0x6C078965 * N.lxor seed (N.shiftr seed 30) + N.of_nat i).

(** mt.py:27-37, [re_init]. *)
Definition mt_re_init (self : mt) (seed : N) : mt :=
  let seed := w32 seed in
  let '(_, st) :=
    for_range 623 1
      (fun i '(seed, st) =>
         let seed := mt_init_word seed i in (seed, aset st i seed))
      (seed, aset (mt_state self) 0 seed) in
  mkMT st 624.

(** mt.py:21-25, [__init__]: np.empty leaves arbitrary words in the array; they
    are a parameter here. *)
Definition mt_new (junk : list N) (seed : N) : mt :=
  mt_re_init (mkMT junk 624) seed.

(** mt.py:71-72: y_val and the new word from state[i], state[j], state[k]. *)
Definition mt_word (st : list N) (i j k : nat) : N :=
  let y_val := N.lor (N.land (aget st i) 0x80000000) (N.land (aget st j) 0x7FFFFFFF) in
  N.lxor (N.lxor (N.shiftr y_val 1) (MAG02 (N.land y_val 1))) (aget st k).

(** mt.py:63-81, [shuffle]. *)
Definition mt_shuffle_state (st : list N) : list N :=
  let st := for_range 227 0 (fun i st => aset st i (mt_word st i (i + 1) (i + 397))) st in
  let st := for_range 396 227 (fun i st => aset st i (mt_word st i (i + 1) (i - 227))) st in
  aset st 623 (mt_word st 623 0 396).
Definition mt_shuffle (self : mt) : mt := mkMT (mt_shuffle_state (mt_state self)) 0.

(** mt.py:56-61, the tempering. The shifted values are masked to 32 bits by the
    constants, so both modes agree. *)
Definition mt_temper (y : N) : N :=
  let y := N.lxor y (N.shiftr y 11) in
  let y := N.lxor y (N.land (N.shiftl y 7) 0x9D2C5680) in
  let y := N.lxor y (N.land (N.shiftl y 15) 0xEFC60000) in
  N.lxor y (N.shiftr y 18).

(** mt.py:48-61, [next]. *)
Definition mt_next (self : mt) : mt * N :=
  let self := if mt_index self =? 624 then mt_shuffle self else self in
  let y := aget (mt_state self) (N.to_nat (mt_index self)) in
  (mkMT (mt_state self) (w16 (mt_index self + 1)), mt_temper y).

(** mt.py:39-46, [advance]. Without numba [adv += np.uint32(self.index)] wraps at
    32 bits; under numba the sum is held in 64 bits. *)
Definition mt_advance (m : mode) (self : mt) (adv : N) : res mt :=
  let adv := w32 adv in
  let adv := match m with
             | NumPy => w32 (adv + mt_index self)
             | Numba => w64 (adv + mt_index self)
             end in
  rmap (fun '(self, adv) => mkMT (mt_state self) (w16 adv))
    (while_loop (N.to_nat (adv / 624))
       (fun '(_, adv) => 624 <=? adv)
       (fun '(self, adv) => (mt_shuffle self, adv - 624))
       (self, adv)).

(** mt.py:83-86, [next_rand]. *)
Definition mt_next_rand (self : mt) (maximum : N) : mt * N :=
  let '(self, r) := mt_next self in
  (self, w32 (N.shiftr (w64 (r * w64 maximum)) 32)).

(** mt.py:88-90, [next_rand_mod]. *)
Definition mt_next_rand_mod (m : mode) (self : mt) (maximum : N) : mt * res N :=
  let '(self, r) := mt_next self in
  (self, umod m r (w32 maximum)).

(** mt.py:63-81 and 48-61 again with every array access checked, for the
    statement that no access is out of bounds (numba does not check them). *)
Definition mt_word_r (st : list N) (i j k : nat) : res N :=
  rbind (agetr st i) (fun a => rbind (agetr st j) (fun b => rbind (agetr st k) (fun c =>
    let y_val := N.lor (N.land a 0x80000000) (N.land b 0x7FFFFFFF) in
    Ok (N.lxor (N.lxor (N.shiftr y_val 1) (MAG02 (N.land y_val 1))) c)))).
Definition mt_shuffle_r (self : mt) : res mt :=
  let put st i j k := rbind (mt_word_r st i j k) (asetr st i) in
  rbind (for_range_r 227 0 (fun i st => put st i (i + 1) (i + 397))%nat (mt_state self)) (fun st =>
  rbind (for_range_r 396 227 (fun i st => put st i (i + 1) (i - 227))%nat st) (fun st =>
  rmap (fun st => mkMT st 0) (put st 623 0 396)%nat)).
Definition mt_next_r (self : mt) : res (mt * N) :=
  rbind (if mt_index self =? 624 then mt_shuffle_r self else Ok self) (fun self =>
  rmap (fun y => (mkMT (mt_state self) (w16 (mt_index self + 1)), mt_temper y))
    (agetr (mt_state self) (N.to_nat (mt_index self)))).

(** The public methods as operations on one object, for statements about
    histories of calls. *)
Inductive mt_op :=
| MNext | MAdvance (adv : N) | MRand (maximum : N) | MRandMod (maximum : N)
| MReInit (seed : N) | MShuffle.
Definition mt_call (m : mode) (self : mt) (op : mt_op) : mt * outcome :=
  match op with
  | MNext => let '(self, r) := mt_next self in (self, OVal r)
  | MAdvance adv =>
      match mt_advance m self adv with
      | Ok self => (self, ONone)
      | Raise e => (self, OExn e)
      end
  | MRand mx => let '(self, r) := mt_next_rand self mx in (self, OVal r)
  | MRandMod mx => let '(self, r) := mt_next_rand_mod m self mx in (self, of_res r)
  | MReInit seed => (mt_re_init self seed, ONone)
  | MShuffle => (mt_shuffle self, ONone)
  end.

Fixpoint mt_calls (m : mode) (self : mt) (ops : list mt_op) : mt * list outcome :=
  match ops with
  | [] => (self, [])
  | op :: t => let '(self, o) := mt_call m self op in
               let '(self, os) := mt_calls m self t in (self, o :: os)
  end.
