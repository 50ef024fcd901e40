(** The spawners of area 1, evaluated once. *)
From Coq Require Import NArith ZArith List.
From Verif Require Import Base.Word Model.Flatbuf Model.FbsLA Model.Trie Model.LaSpawn1
  Proofs.FbsFast Proofs.SpawnFast Proofs.LaLitCommon.
Import ListNotations.
Open Scope N_scope.

Definition spawners_1 : list spawner := Eval vm_compute in
  keep (froot (trie_get spawner_1_trie spawner_1_size) (fspawner (trie_get spawner_1_trie spawner_1_size))).
Lemma spawners_1_ok :
  froot (trie_get spawner_1_trie spawner_1_size) (fspawner (trie_get spawner_1_trie spawner_1_size)) =
  Ok spawners_1.
Proof. vm_cast_no_check (eq_refl (Ok spawners_1)). Qed.
