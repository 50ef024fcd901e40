(** [jump] and [const_jump] of lcrng32.py and lcrng64.py on arguments that are NumPy
    integers, interpreted (NumPy 1). The two loops of these methods are the only code that
    combines an argument annotated np.uint64 with Python integers by bitwise operators. *)
From Coq Require Import NArith List.
From Verif Require Import Base.Word Model.Lcrng32 Model.Lcrng64.
Import ListNotations.
Open Scope N_scope.

(** A non-negative integer argument: a Python int, an unsigned NumPy scalar of some number of
    bits, or a signed NumPy scalar. *)
Inductive scalar := PyInt (n : N) | UInt (width n : N) | SInt (n : N).
Definition value (a : scalar) : N := match a with PyInt n | UInt _ n | SInt n => n end.

(** [a & 1] and [a >> 1]. The literal 1 is an int64 to NumPy; unsigned scalars below 64 bits
    and int64 combine to int64. There is no integer type for uint64 and int64: they combine
    to float64, on which the bitwise operators raise TypeError. *)
Definition with_literal (f : N -> N) (a : scalar) : res scalar :=
  match a with
  | PyInt n => Ok (PyInt (f n))
  | UInt w n => if w =? 64 then Raise TypeError else Ok (SInt (f n))
  | SInt n => Ok (SInt (f n))
  end.
Definition and_one : scalar -> res scalar := with_literal (fun n => N.land n 1).
Definition shift_one : scalar -> res scalar := with_literal (fun n => N.shiftr n 1).

(** lcrng32.py:116-126 and lcrng64.py:112-122, [jump]; [cast] is np.uint32 or np.uint64. *)
Fixpoint jump_loop (cast : N -> N) (fuel : nat) (tbl : list (N * N)) (seed : N) (adv : scalar) (i : nat) : N * res N :=
  if value adv =? 0 then (seed, Ok (cast seed))
  else
    match fuel with
    | O => (seed, Raise OutOfFuel)
    | S f =>
        match and_one adv with
        | Raise e => (seed, Raise e)
        | Ok bit =>
            let moved :=
              if value bit =? 0 then Ok seed
              else match nth_error tbl i with
                   | None => Raise IndexError
                   | Some (add, mult) => Ok (cast (seed * mult + add))
                   end in
            match moved with
            | Raise e => (seed, Raise e)
            | Ok seed =>
                match shift_one adv with
                | Raise e => (seed, Raise e)
                | Ok adv => jump_loop cast f tbl seed adv (S i)
                end
            end
        end
    end.
Definition lcrng32_jump_of (add mult seed : N) (adv : scalar) : N * res N :=
  jump_loop w32 (N.size_nat (value adv)) (jump_table32 add mult) seed adv 0.
Definition lcrng64_jump_of (add mult seed : N) (adv : scalar) : N * res N :=
  jump_loop w64 (N.size_nat (value adv)) (jump_table64 add mult) seed adv 0.

(** lcrng32.py:128-138 and lcrng64.py:124-134, the loop of [const_jump], which is
    interpreted also under numba. *)
Fixpoint const_jump_loop (cast : N -> N) (fuel : nat) (tbl : list (N * N)) (add mult : N) (adv : scalar) (i : nat) : res (N * N) :=
  if value adv =? 0 then Ok (add, mult)
  else
    match fuel with
    | O => Raise OutOfFuel
    | S f =>
        match nth_error tbl i with
        | None => Raise IndexError
        | Some (add_val, mult_val) =>
            rbind (and_one adv) (fun bit =>
            let '(add, mult) :=
              if value bit =? 0 then (add, mult)
              else (cast (cast (add * mult_val) + add_val), cast (mult * mult_val)) in
            rbind (shift_one adv) (fun adv => const_jump_loop cast f tbl add mult adv (S i)))
        end
    end.
Definition lcrng32_const_jump_of (add mult : N) (adv : scalar) : res (N -> N) :=
  rmap jump_func32 (const_jump_loop w32 (N.size_nat (value adv)) (jump_table32 add mult) 0 1 adv 0).
Definition lcrng64_const_jump_of (add mult : N) (adv : scalar) : res (N -> N) :=
  rmap jump_func64 (const_jump_loop w64 (N.size_nat (value adv)) (jump_table64 add mult) 0 1 adv 0).
