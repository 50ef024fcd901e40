(** Model of numba_pokemon_prngs/lcrng/lcrng32.py. An object is its [seed] field. *)
From Coq Require Import NArith ZArith List.
From Verif Require Import Base.Word Model.Compat.
Import ListNotations.
Open Scope N_scope.

(** lcrng32.py:11-22 *)
Inductive dist32 := D32_NONE | D32_MODULO | D32_RECIPROCAL_DIVISION.

(** lcrng32.py:31-33, 35-37: [__init__] and [re_init] both store np.uint32(seed). *)
Definition lcrng32_new (seed : N) : N := w32 seed.
Definition lcrng32_re_init (self seed : N) : N := w32 seed.

(** lcrng32.py:81-94: the constants used by the class. [minor] is the Python
    minor version that selects [mod_inv]. *)
Definition lcrng32_consts (minor : N) (add mult : N) (reverse : bool) : res (N * N) :=
  if reverse then
    rmap (fun inv => let mult := w32 (Z.to_N inv) in
                     (w32 (neg32 (w32 add) * mult), mult))
         (mod_inv minor (Z.of_N mult) 4294967296)
  else Ok (w32 add, w32 mult).

(** lcrng32.py:98-106: the entry after (add, mult). *)
Definition jump_table32_next (e : N * N) : N * N :=
  let '(add, mult) := e in
  (w32 (add * w32 (mult + 1)), w32 (mult * mult)).

(** lcrng32.py:96-107: entry (add, mult) followed by [n] further entries; the
    Python loop appends, here the list is built front to back. *)
Fixpoint jump_table32_from (n : nat) (e : N * N) : list (N * N) :=
  match n with
  | O => [e]
  | S n' => e :: jump_table32_from n' (jump_table32_next e)
  end.
Definition jump_table32 (add mult : N) : list (N * N) :=
  jump_table32_from 31 (add, mult).

(** lcrng32.py:110-114, [next_]: the new seed is also the return value. *)
Definition lcrng32_next (add mult : N) (seed : N) : N := w32 (seed * mult + add).

(** lcrng32.py:116-126, [jump]. [adv] is a Python int >= 0. Returns the seed
    field on exit and the returned value or exception (the seed is modified by
    the lower bits before an IndexError is raised). *)
Fixpoint jump32_loop (fuel : nat) (tbl : list (N * N)) (seed adv : N) (i : nat)
  : N * res N :=
  if adv =? 0 then (seed, Ok (w32 seed))
  else
    match fuel with
    | O => (seed, Raise OutOfFuel)
    | S f =>
        if N.odd adv then
          match nth_error tbl i with
          | None => (seed, Raise IndexError)
          | Some (add, mult) =>
              jump32_loop f tbl (w32 (seed * mult + add)) (N.div2 adv) (S i)
          end
        else jump32_loop f tbl seed (N.div2 adv) (S i)
    end.
Definition lcrng32_jump (add mult : N) (seed adv : N) : N * res N :=
  jump32_loop (N.size_nat adv) (jump_table32 add mult) seed adv 0.

(** lcrng32.py:128-138, the loop of [const_jump]: the table is read on every
    iteration, also for zero bits. *)
Fixpoint const_jump32_loop (fuel : nat) (tbl : list (N * N)) (add mult adv : N) (i : nat)
  : res (N * N) :=
  if adv =? 0 then Ok (add, mult)
  else
    match fuel with
    | O => Raise OutOfFuel
    | S f =>
        match nth_error tbl i with
        | None => Raise IndexError
        | Some (add_val, mult_val) =>
            if N.odd adv then
              const_jump32_loop f tbl (w32 (w32 (add * mult_val) + add_val))
                (w32 (mult * mult_val)) (N.div2 adv) (S i)
            else const_jump32_loop f tbl add mult (N.div2 adv) (S i)
        end
    end.

(** lcrng32.py:140-147, [jump_func]: new seed and return value. *)
Definition jump_func32 (c : N * N) (seed : N) : N := w32 (seed * snd c + fst c).
Definition lcrng32_const_jump (add mult : N) (adv : N) : res (N -> N) :=
  rmap jump_func32
    (const_jump32_loop (N.size_nat adv) (jump_table32 add mult) 0 1 adv 0).

(** lcrng32.py:51-56, [advance]: returns np.uint32(self.seed). *)
Definition lcrng32_advance (add mult : N) (seed adv : N) : N :=
  N.iter (w32 adv) (lcrng32_next add mult) seed.

(** lcrng32.py:58-60, [next_u16]: new seed, returned value. *)
Definition lcrng32_next_u16 (add mult : N) (seed : N) : N * N :=
  let seed := lcrng32_next add mult seed in
  (seed, w16 (N.shiftr (w32 seed) 16)).

(** lcrng32.py:149-189, [next_rand] for each distribution: new seed and result.
    The rand is drawn before the operands on its right are evaluated. *)
Definition lcrng32_next_rand (m : mode) (d : dist32) (add mult : N) (seed maximum : N)
  : N * res N :=
  match d with
  | D32_MODULO =>                                          (* 151-152 *)
      let '(seed, r) := lcrng32_next_u16 add mult seed in
      (seed, umod m (w16 r) (w16 maximum))
  | D32_RECIPROCAL_DIVISION =>                             (* 165-168 *)
      let '(seed, r) := lcrng32_next_u16 add mult seed in
      (seed, rbind (udiv m 65535 (w16 maximum))
               (fun q => udiv m (w16 r) (w16 (q + 1))))
  | D32_NONE => (seed, Raise NotImplementedError)          (* 183-184 *)
  end.

(** lcrng32.py:154-161, 170-179, 186-189: [const_rand] returns a function of the
    generator. *)
Definition lcrng32_const_rand (m : mode) (d : dist32) (add mult : N) (maximum : N)
  : res (N -> N * res N) :=
  match d with
  | D32_MODULO =>
      Ok (fun seed =>
            let '(seed, r) := lcrng32_next_u16 add mult seed in
            (seed, umod m (w16 r) (w16 maximum)))
  | D32_RECIPROCAL_DIVISION =>
      Ok (fun seed =>
            let '(seed, r) := lcrng32_next_u16 add mult seed in
            (seed, rbind (udiv m 65535 (w16 maximum))
                     (fun q => udiv m (w16 r) (w16 (q + 1)))))
  | D32_NONE => Raise NotImplementedError
  end.
