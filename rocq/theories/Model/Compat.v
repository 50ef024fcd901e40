(** Model of numba_pokemon_prngs/compatability.py. *)
From Coq Require Import NArith ZArith List.
From Verif Require Import Base.Word.
Open Scope Z_scope.

(** compatability.py:11-15, [extended_gcd]. Python integers are unbounded;
    [//] and [%] are floor division and its remainder (Coq's [Z.div], [Z.modulo]).
    Fuel replaces the recursion; [None] means it ran out. *)
Fixpoint extended_gcd (fuel : nat) (a_val b_val : Z) : option (Z * Z * Z) :=
  match fuel with
  | O => None
  | S f =>
      if a_val =? 0 then Some (b_val, 0, 1)
      else
        match extended_gcd f (b_val mod a_val) a_val with
        | None => None
        | Some (g_val, y_val, x_val) =>
            Some (g_val, x_val - (b_val / a_val) * y_val, y_val)
        end
  end.

(** Fuel that is enough for every a_val >= 0 (proved in Proofs/CompatProofs.v). *)
Definition gcd_fuel (a : Z) : nat := (2 * N.size_nat (Z.to_N a) + 2)%nat.

(** compatability.py:8-20, [mod_inv] for Python < 3.8. *)
Definition mod_inv_py37 (value modulus : Z) : res Z :=
  match extended_gcd (gcd_fuel value) value modulus with
  | None => Raise OutOfFuel
  | Some (gcd, inv, _) =>
      if gcd =? 1 then Ok (inv mod modulus) else Raise ValueError
  end.

(** CPython's long_invmod (Objects/longobject.c), the builtin behind
    [pow(value, -1, modulus)]: while n != 0, divide with remainder and update the
    cofactors b, c. Not part of the repository; modelled because
    compatability.py:26 calls it. *)
Fixpoint long_invmod_loop (fuel : nat) (a n b c : Z) : option (Z * Z) :=
  if n =? 0 then Some (a, b)
  else match fuel with
       | O => None
       | S f => long_invmod_loop f n (a mod n) c (b - (a / n) * c)
       end.

(** compatability.py:22-26, [mod_inv] for Python >= 3.8. For a positive modulus
    the builtin reduces its result modulo the modulus. *)
Definition mod_inv_py38 (value modulus : Z) : res Z :=
  match long_invmod_loop (gcd_fuel modulus) value modulus 1 0 with
  | None => Raise OutOfFuel
  | Some (a, b) => if a =? 1 then Ok (b mod modulus) else Raise ValueError
  end.

(** compatability.py:6-26: the definition is chosen by [sys.version_info.minor < 8]. *)
Definition mod_inv (minor : N) (value modulus : Z) : res Z :=
  if (minor <? 8)%N then mod_inv_py37 value modulus else mod_inv_py38 value modulus.
