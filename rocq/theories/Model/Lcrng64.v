(** Model of numba_pokemon_prngs/lcrng/lcrng64.py. An object is its [seed] field. *)
From Coq Require Import NArith ZArith List.
From Verif Require Import Base.Word Model.Compat.
Import ListNotations.
Open Scope N_scope.

(** lcrng64.py:11-19 *)
Inductive dist64 := D64_NONE | D64_MULTIPLICATION_SHIFT.

(** lcrng64.py:28-29, 31-33: [__init__] and [re_init] both store np.uint64(seed). *)
Definition lcrng64_new (seed : N) : N := w64 seed.
Definition lcrng64_re_init (self seed : N) : N := w64 seed.

(** lcrng64.py:77-90: the constants used by the class. *)
Definition lcrng64_consts (minor : N) (add mult : N) (reverse : bool) : res (N * N) :=
  if reverse then
    rmap (fun inv => let mult := w64 (Z.to_N inv) in
                     (w64 (neg64 (w64 add) * mult), mult))
         (mod_inv minor (Z.of_N mult) 18446744073709551616)
  else Ok (w64 add, w64 mult).

(** lcrng64.py:94-102: the entry after (add, mult). *)
Definition jump_table64_next (e : N * N) : N * N :=
  let '(add, mult) := e in
  (w64 (add * w64 (mult + 1)), w64 (mult * mult)).

(** lcrng64.py:92-103: entry (add, mult) followed by [n] further entries; the
    Python loop appends, here the list is built front to back. *)
Fixpoint jump_table64_from (n : nat) (e : N * N) : list (N * N) :=
  match n with
  | O => [e]
  | S n' => e :: jump_table64_from n' (jump_table64_next e)
  end.
Definition jump_table64 (add mult : N) : list (N * N) :=
  jump_table64_from 63 (add, mult).

(** lcrng64.py:106-110, [next_]: the new seed is also the return value. *)
Definition lcrng64_next (add mult : N) (seed : N) : N := w64 (seed * mult + add).

(** lcrng64.py:112-122, [jump]. [adv] is a Python int >= 0. Returns the seed
    field on exit and the returned value or exception. *)
Fixpoint jump64_loop (fuel : nat) (tbl : list (N * N)) (seed adv : N) (i : nat)
  : N * res N :=
  if adv =? 0 then (seed, Ok (w64 seed))
  else
    match fuel with
    | O => (seed, Raise OutOfFuel)
    | S f =>
        if N.odd adv then
          match nth_error tbl i with
          | None => (seed, Raise IndexError)
          | Some (add, mult) =>
              jump64_loop f tbl (w64 (seed * mult + add)) (N.div2 adv) (S i)
          end
        else jump64_loop f tbl seed (N.div2 adv) (S i)
    end.
Definition lcrng64_jump (add mult : N) (seed adv : N) : N * res N :=
  jump64_loop (N.size_nat adv) (jump_table64 add mult) seed adv 0.

(** lcrng64.py:124-134, the loop of [const_jump]: the table is read on every
    iteration, also for zero bits. *)
Fixpoint const_jump64_loop (fuel : nat) (tbl : list (N * N)) (add mult adv : N) (i : nat)
  : res (N * N) :=
  if adv =? 0 then Ok (add, mult)
  else
    match fuel with
    | O => Raise OutOfFuel
    | S f =>
        match nth_error tbl i with
        | None => Raise IndexError
        | Some (add_val, mult_val) =>
            if N.odd adv then
              const_jump64_loop f tbl (w64 (w64 (add * mult_val) + add_val))
                (w64 (mult * mult_val)) (N.div2 adv) (S i)
            else const_jump64_loop f tbl add mult (N.div2 adv) (S i)
        end
    end.

(** lcrng64.py:136-143, [jump_func]: new seed and return value. *)
Definition jump_func64 (c : N * N) (seed : N) : N := w64 (seed * snd c + fst c).
Definition lcrng64_const_jump (add mult : N) (adv : N) : res (N -> N) :=
  rmap jump_func64
    (const_jump64_loop (N.size_nat adv) (jump_table64 add mult) 0 1 adv 0).

(** lcrng64.py:47-52, [advance]: returns np.uint64(self.seed). *)
Definition lcrng64_advance (add mult : N) (seed adv : N) : N :=
  N.iter (w64 adv) (lcrng64_next add mult) seed.

(** lcrng64.py:54-56, [next_u32]: new seed, returned value. *)
Definition lcrng64_next_u32 (add mult : N) (seed : N) : N * N :=
  let seed := lcrng64_next add mult seed in
  (seed, w32 (N.shiftr (w64 seed) 32)).

(** lcrng64.py:145-150, 166-167, [next_rand]: new seed and result. *)
Definition lcrng64_next_rand (d : dist64) (add mult : N) (seed maximum : N)
  : N * res N :=
  match d with
  | D64_MULTIPLICATION_SHIFT =>
      let '(seed, r) := lcrng64_next_u32 add mult seed in
      (seed, Ok (w32 (N.shiftr (w64 (w64 r * w64 maximum)) 32)))
  | D64_NONE => (seed, Raise NotImplementedError)
  end.

(** lcrng64.py:152-162, 169-172, [const_rand]. *)
Definition lcrng64_const_rand (d : dist64) (add mult : N) (maximum : N)
  : res (N -> N * res N) :=
  match d with
  | D64_MULTIPLICATION_SHIFT =>
      Ok (fun seed =>
            let '(seed, r) := lcrng64_next_u32 add mult seed in
            (seed, Ok (w32 (N.shiftr (w64 (w64 r * w64 maximum)) 32))))
  | D64_NONE => Raise NotImplementedError
  end.
