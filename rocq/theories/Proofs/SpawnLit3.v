(** The spawners of area 3, evaluated once. *)
From Coq Require Import NArith ZArith List.
From Verif Require Import Base.Word Model.Flatbuf Model.FbsLA Model.Trie Model.LaSpawn3
  Proofs.FbsFast Proofs.SpawnFast Proofs.LaLitCommon.
Import ListNotations.
Open Scope N_scope.

Definition spawners_3 : list spawner := Eval vm_compute in
  keep (froot (trie_get spawner_3_trie spawner_3_size) (fspawner (trie_get spawner_3_trie spawner_3_size))).
Lemma spawners_3_ok :
  froot (trie_get spawner_3_trie spawner_3_size) (fspawner (trie_get spawner_3_trie spawner_3_size)) =
  Ok spawners_3.
Proof. vm_cast_no_check (eq_refl (Ok spawners_3)). Qed.
