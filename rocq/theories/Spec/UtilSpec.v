(** What the helpers of util.py are to compute. *)
From Coq Require Import NArith List Ascii String Bool.
From Verif Require Import Base.Word.
Import ListNotations.
Open Scope N_scope.

(** [r] is the w-bit number [v] with bit i moved to position (i + k) mod w. *)
Definition rotated (w v k r : N) : Prop :=
  r < 2^w /\ forall i, i < w -> N.testbit r ((i + k) mod w) = N.testbit v i.

(** Counts for which the helpers are defined: with numba a 64-bit value must not be
    shifted by 64. *)
Definition rot_count_ok (m : mode) (w c : N) : Prop :=
  match m with
  | NumPy => c <= w
  | Numba => if w =? 64 then 0 < c < 64 else c <= w
  end.

(** Value of an upper-case hexadecimal digit, and of a string of such digits. *)
Definition hex_digit (a : ascii) : option N :=
  let n := N_of_ascii a in
  if (48 <=? n) && (n <=? 57) then Some (n - 48)
  else if (65 <=? n) && (n <=? 70) then Some (n - 55)
  else None.
Fixpoint hex_value_from (acc : N) (s : string) : option N :=
  match s with
  | EmptyString => Some acc
  | String a s => match hex_digit a with
                  | Some d => hex_value_from (16 * acc + d) s
                  | None => None
                  end
  end.
Definition hex_value (s : string) : option N := hex_value_from 0 s.
