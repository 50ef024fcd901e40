(** Encounter tables of the bundled Legends Arceus files that are exceptions in C73, by area. *)
From Coq Require Import NArith List.
Import ListNotations.
Open Scope N_scope.

(** Tables in which no slot has weight at some time and weather; lnd_no_74, lnd_ex_02,
    fly_no_06 and oyb_ex_17 in area 1, and so on. *)
Definition no_weight (k : N) : list N :=
  match k with
  | 1 => [0x6a6461bf28b62101; 0x83b2dcf761d48736; 0xbca39103c9ca6d97; 0xc63aee83126c5920]
  | 2 => [0xc6376b83126944b0; 0xc6376d8312694816; 0x617b9b844bff6a62; 0x617b99844bff66fc]
  | 3 => [0x2f55d600dc453c86; 0x6a59cebf28acd2b3; 0x6a5d5dbf28affb87; 0x6a56d0bf28aaa042; 0x6a56cfbf28aa9e8f;
          0x83b2dbf761d48583; 0xbca38e03c9ca687e; 0xbca39203c9ca6f4a; 0xbca08903c9c82a28; 0xbca08a03c9c82bdb;
          0xbca08b03c9c82d8e; 0xc637708312694d2f; 0xc6376b83126944b0; 0x32c6eff14b2237e9; 0x3e50c8bde28887a6]
  | 4 => [0x6a59d2bf28acd97f; 0xc637708312694d2f; 0xc6376b83126944b0]
  | 5 => [0xc6376c8312694663; 0x32c9f3f14b24748c]
  | _ => []
  end.
(** Tables with an empty level range: mas_no_02 in area 2 goes from 24 to 22. *)
Definition bad_levels (k : N) : list N := match k with 2 => [0x5f6331859736d8dd] | _ => [] end.
