(** Pokemon of Generation 3 with the best IVs. *)
From Coq Require Import NArith List.
From Verif Require Import Model.Gen3Area Model.Gen3Wild.
Import ListNotations.
Open Scope N_scope.

Definition best_ivs : list N := [31; 31; 31; 31; 31; 31].
(** Their PIDs by Method 1. The natures (PID modulo 25) are Modest, Modest, Calm, Docile, Timid and Modest. *)
Definition best_pids_1 : list N := [0x685011A9; 0xF9426F72; 0xE9375A48; 0xE85091A9; 0x7942EF72; 0x6937DA48].
(** By Method 2: Careful, Lax, Naive, Naive, Hardy and Rash. *)
Definition best_pids_2 : list N := [0x11A97B04; 0x6F72469F; 0x5A48D694; 0x91A9FB04; 0xEF72C69F; 0xDA485694].
(** Those of Method 2 that need Synchronize are the others. *)
Definition plain_pids_2 : list N := [0x5A48D694; 0xEF72C69F].
(** By Method 4: Modest, Naive, Timid and Careful. *)
Definition best_pids_4 : list N := [0xB8862C85; 0x995ABC94; 0x3886AC85; 0x195A3C94].
(** By method (of which the generator has Methods 1, 2 and 4). *)
Definition best_pids (method : N) : list N :=
  if method =? Method_METHOD_2 then best_pids_2 else if method =? Method_METHOD_4 then best_pids_4 else best_pids_1.
(** Those that come up without Synchronize. *)
Definition plain_best_pids (method : N) : list N :=
  if method =? Method_METHOD_2 then plain_pids_2 else best_pids method.

(** How many of the 2^32 seeds give them, by method and lead. *)
Definition best_seeds (method lead : N) : N :=
  if Lead_SYNCHRONIZE_QUIRKY <? lead then
    if method =? Method_METHOD_2 then 3 else if method =? Method_METHOD_4 then 6 else 20
  else nth (N.to_nat lead)
    (if method =? Method_METHOD_2 then
       [6; 2; 2; 2; 2; 2; 2; 2; 2; 6; 2; 2; 2; 2; 33; 2; 2; 2; 2; 7; 2; 2; 2; 10; 2]
     else if method =? Method_METHOD_4 then
       [5; 5; 5; 5; 5; 5; 5; 5; 5; 5; 9; 5; 5; 5; 15; 8; 5; 5; 5; 5; 5; 5; 5; 34; 5]
     else [12; 12; 12; 12; 12; 12; 30; 12; 12; 12; 22; 12; 12; 12; 12; 70; 12; 12; 12; 12; 61; 12; 12; 12; 12]) 0.
Definition has_best_ivs (ivs : list N) : bool := forallb (N.eqb 31) ivs.
