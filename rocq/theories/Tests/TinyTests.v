(** The repository's own test vectors, run on the model (tests/test_mersenne_twister.py). *)
From Coq Require Import NArith List.
From Verif Require Import Base.Word Model.TinyMT.
Import ListNotations.
Open Scope N_scope.

Example tiny_next_vec : forall m, snd (tiny_calls m (tiny_new m [0; 0; 0; 0] 0x12345678) (repeat TNext 5))
  = map OVal [2481148692; 2185716838; 3625480341; 3369169125; 3389594172].
Proof. intros []; now vm_compute. Qed.

(** test_next_rand: 25 next_rand calls, then 25 next_rand_mod calls. *)
Example tiny_rand_vec : forall m,
  snd (tiny_calls m (tiny_new m [0; 0; 0; 0] 0x12345678)
    (flat_map (fun mx => repeat (TRand mx) 5) [2; 5; 25; 100; 256]
     ++ flat_map (fun mx => repeat (TRandMod mx) 5) [2; 5; 25; 100; 256]))
  = map OVal [1; 1; 1; 1; 1; 1; 0; 2; 4; 0; 23; 0; 4; 20; 21; 59; 51; 5; 47; 77; 156; 84; 195; 5; 150;
              0; 0; 1; 1; 0; 2; 2; 2; 0; 3; 20; 14; 8; 22; 2; 98; 10; 40; 11; 54; 30; 185; 57; 8; 182].
Proof. intros []; now vm_compute. Qed.
