(** One LCRNG object and the calls made on it, over Model/Lcrng32.v and Model/Lcrng64.v. *)
From Coq Require Import NArith List.
From Verif Require Import Base.Word Model.Lcrng32 Model.Lcrng64.
Import ListNotations.
Open Scope N_scope.

(** The public methods; [LHalf] is next_u16 or next_u32. [LConstJump] and [LConstRand] call
    the function that const_jump or const_rand returns on the object. *)
Inductive lcrng_op :=
| LNext | LHalf | LRand (maximum : N) | LAdvance (adv : N) | LJump (adv : N)
| LConstJump (adv : N) | LConstRand (maximum : N) | LReInit (seed : N).

(** lcrng32.py:26-73 and 110-189, on an object of the class with these constants. The
    object is its seed; next, advance, jump and jump_func return the new one. *)
Definition lcrng32_call (m : mode) (d : dist32) (add mult : N) (seed : N) (op : lcrng_op) : N * outcome :=
  match op with
  | LNext => let seed := lcrng32_next add mult seed in (seed, OVal seed)
  | LHalf => let '(seed, r) := lcrng32_next_u16 add mult seed in (seed, OVal r)
  | LRand mx => let '(seed, r) := lcrng32_next_rand m d add mult seed mx in (seed, of_res r)
  | LAdvance adv => let seed := lcrng32_advance add mult seed adv in (seed, OVal seed)
  | LJump adv => let '(seed, r) := lcrng32_jump add mult seed adv in (seed, of_res r)
  | LConstJump adv => match lcrng32_const_jump add mult adv with
                      | Ok f => let seed := f seed in (seed, OVal seed)
                      | Raise e => (seed, OExn e)
                      end
  | LConstRand mx => match lcrng32_const_rand m d add mult mx with
                     | Ok f => let '(seed, r) := f seed in (seed, of_res r)
                     | Raise e => (seed, OExn e)
                     end
  | LReInit s => (lcrng32_re_init seed s, ONone)
  end.
Fixpoint lcrng32_calls (m : mode) (d : dist32) (add mult : N) (seed : N) (ops : list lcrng_op)
  : N * list outcome :=
  match ops with
  | [] => (seed, [])
  | op :: t => let '(seed, o) := lcrng32_call m d add mult seed op in
               let '(seed, os) := lcrng32_calls m d add mult seed t in (seed, o :: os)
  end.

(** lcrng64.py:22-69 and 106-172, likewise; its methods have one model for both modes. *)
Definition lcrng64_call (d : dist64) (add mult : N) (seed : N) (op : lcrng_op) : N * outcome :=
  match op with
  | LNext => let seed := lcrng64_next add mult seed in (seed, OVal seed)
  | LHalf => let '(seed, r) := lcrng64_next_u32 add mult seed in (seed, OVal r)
  | LRand mx => let '(seed, r) := lcrng64_next_rand d add mult seed mx in (seed, of_res r)
  | LAdvance adv => let seed := lcrng64_advance add mult seed adv in (seed, OVal seed)
  | LJump adv => let '(seed, r) := lcrng64_jump add mult seed adv in (seed, of_res r)
  | LConstJump adv => match lcrng64_const_jump add mult adv with
                      | Ok f => let seed := f seed in (seed, OVal seed)
                      | Raise e => (seed, OExn e)
                      end
  | LConstRand mx => match lcrng64_const_rand d add mult mx with
                     | Ok f => let '(seed, r) := f seed in (seed, of_res r)
                     | Raise e => (seed, OExn e)
                     end
  | LReInit s => (lcrng64_re_init seed s, ONone)
  end.
Fixpoint lcrng64_calls (d : dist64) (add mult : N) (seed : N) (ops : list lcrng_op) : N * list outcome :=
  match ops with
  | [] => (seed, [])
  | op :: t => let '(seed, o) := lcrng64_call d add mult seed op in
               let '(seed, os) := lcrng64_calls d add mult seed t in (seed, o :: os)
  end.
