(** Model of numba_pokemon_prngs/lcrng/__init__.py: the published generators. *)
From Coq Require Import NArith List.
From Verif Require Import Base.Word Model.Lcrng32 Model.Lcrng64.
Import ListNotations.
Open Scope N_scope.

(** Arguments of the [lcrng32_init] / [lcrng64_init] decorators. *)
Record lcrng32_params := mk32 { p32_add : N; p32_mult : N; p32_dist : dist32; p32_rev : bool }.
Record lcrng64_params := mk64 { p64_add : N; p64_mult : N; p64_dist : dist64; p64_rev : bool }.

(** lcrng/__init__.py:16-20 *)
Definition PokeRNGMod  := mk32 0x6073 0x41C64E6D D32_MODULO false.
(** lcrng/__init__.py:23-29 *)
Definition PokeRNGDiv  := mk32 0x6073 0x41C64E6D D32_RECIPROCAL_DIVISION false.
(** lcrng/__init__.py:32-39 *)
Definition PokeRNGRMod := mk32 0x6073 0x41C64E6D D32_MODULO true.
(** lcrng/__init__.py:42-49 *)
Definition PokeRNGRDiv := mk32 0x6073 0x41C64E6D D32_RECIPROCAL_DIVISION true.
(** lcrng/__init__.py:52-57: no distribution is given. *)
Definition ARNG        := mk32 0x1 0x6C078965 D32_NONE false.
(** lcrng/__init__.py:60-66 *)
Definition ARNGR       := mk32 0x1 0x6C078965 D32_NONE true.
(** lcrng/__init__.py:69-75 *)
Definition XDRNG       := mk32 0x269EC3 0x343FD D32_MODULO false.
(** lcrng/__init__.py:78-85 *)
Definition XDRNGR      := mk32 0x269EC3 0x343FD D32_MODULO true.
(** lcrng/__init__.py:88-94 *)
Definition BWRNG       := mk64 0x269EC3 0x5D588B656C078965 D64_MULTIPLICATION_SHIFT false.
(** lcrng/__init__.py:97-104 *)
Definition BWRNGR      := mk64 0x269EC3 0x5D588B656C078965 D64_MULTIPLICATION_SHIFT true.

Definition published32 : list lcrng32_params :=
  [PokeRNGMod; PokeRNGDiv; PokeRNGRMod; PokeRNGRDiv; ARNG; ARNGR; XDRNG; XDRNGR].
Definition published64 : list lcrng64_params := [BWRNG; BWRNGR].

(** The constants a published class works with (lcrng32.py:89-94, lcrng64.py:85-90). *)
Definition consts_of32 (minor : N) (p : lcrng32_params) : res (N * N) :=
  lcrng32_consts minor (p32_add p) (p32_mult p) (p32_rev p).
Definition consts_of64 (minor : N) (p : lcrng64_params) : res (N * N) :=
  lcrng64_consts minor (p64_add p) (p64_mult p) (p64_rev p).
