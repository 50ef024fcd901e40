(** The spawners of area 2, evaluated once. *)
From Coq Require Import NArith ZArith List.
From Verif Require Import Base.Word Model.Flatbuf Model.FbsLA Model.Trie Model.LaSpawn2
  Proofs.FbsFast Proofs.SpawnFast Proofs.LaLitCommon.
Import ListNotations.
Open Scope N_scope.

Definition spawners_2 : list spawner := Eval vm_compute in
  keep (froot (trie_get spawner_2_trie spawner_2_size) (fspawner (trie_get spawner_2_trie spawner_2_size))).
Lemma spawners_2_ok :
  froot (trie_get spawner_2_trie spawner_2_size) (fspawner (trie_get spawner_2_trie spawner_2_size)) =
  Ok spawners_2.
Proof. vm_cast_no_check (eq_refl (Ok spawners_2)). Qed.
