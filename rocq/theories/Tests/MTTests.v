(** The repository's own test vectors, run on the model (tests/test_mersenne_twister.py). *)
From Coq Require Import NArith List.
From Verif Require Import Base.Word Model.MT Spec.MTHistory.
Import ListNotations.
Open Scope N_scope.

Example mt_vec : mt_outputs_of NumPy (mt_new (repeat 0 624) 0x12345678) 5
  = map OVal [3331822403; 157471482; 2805605540; 3776487808; 3041352379].
Proof. now vm_compute. Qed.
