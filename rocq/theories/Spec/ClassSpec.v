(** The generators of the games, as tabulated by the community, beside the classes that
    should implement them. *)
From Coq Require Import NArith List.
From Verif Require Import Base.Word Model.Lcrng32 Model.Lcrng64 Model.LcrngClasses.
Import ListNotations.
Open Scope N_scope.

(** Multiplier and increment. *)
Definition games32 : list (lcrng32_params * (N * N)) :=
  [(PokeRNGMod, (0x41C64E6D, 0x6073)); (PokeRNGDiv, (0x41C64E6D, 0x6073));
   (PokeRNGRMod, (0xEEB9EB65, 0x0A3561A1)); (PokeRNGRDiv, (0xEEB9EB65, 0x0A3561A1));
   (ARNG, (0x6C078965, 1)); (ARNGR, (0x9638806D, 0x69C77F93));
   (XDRNG, (0x343FD, 0x269EC3)); (XDRNGR, (0xB9B33155, 0xA170F641))].
Definition games64 : list (lcrng64_params * (N * N)) :=
  [(BWRNG, (0x5D588B656C078965, 0x269EC3)); (BWRNGR, (0xDEDCEDAE9638806D, 0x9B1AE6E9A384E6F9))].
(** A generator and the one that runs it backwards. *)
Definition pairs32 : list (lcrng32_params * lcrng32_params) :=
  [(PokeRNGMod, PokeRNGRMod); (PokeRNGDiv, PokeRNGRDiv); (ARNG, ARNGR); (XDRNG, XDRNGR)].
(** How a rand below [max] is made from the upper half of the new seed; [None]: not at all. *)
Definition rands32 : list (lcrng32_params * option (N -> N -> N)) :=
  let modulo h max := h mod max in
  let divide h max := h / (65535 / max + 1) in
  [(PokeRNGMod, Some modulo); (PokeRNGRMod, Some modulo); (XDRNG, Some modulo); (XDRNGR, Some modulo);
   (PokeRNGDiv, Some divide); (PokeRNGRDiv, Some divide); (ARNG, None); (ARNGR, None)].
