(** The repository's own test vectors, run on the model (tests/test_mersenne_twister.py). *)
From Coq Require Import NArith List.
From Verif Require Import Base.Word Model.SFMT.
Import ListNotations.
Open Scope N_scope.

Example sfmt_vec m : snd (sfmt_calls m (sfmt_new (repeat 0 624) 0x12345678) (repeat SNext 5))
  = map OVal [4883196442416872734; 15199411253426940632; 10268751338100151066;
              602836503723090224; 2976335783597749142].
Proof. destruct m; now vm_compute. Qed.
