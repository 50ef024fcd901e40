(** The spawners of area 5, evaluated once. *)
From Coq Require Import NArith ZArith List.
From Verif Require Import Base.Word Model.Flatbuf Model.FbsLA Model.Trie Model.LaSpawn5
  Proofs.FbsFast Proofs.SpawnFast Proofs.LaLitCommon.
Import ListNotations.
Open Scope N_scope.

Definition spawners_5 : list spawner := Eval vm_compute in
  keep (froot (trie_get spawner_5_trie spawner_5_size) (fspawner (trie_get spawner_5_trie spawner_5_size))).
Lemma spawners_5_ok :
  froot (trie_get spawner_5_trie spawner_5_size) (fspawner (trie_get spawner_5_trie spawner_5_size)) =
  Ok spawners_5.
Proof. vm_cast_no_check (eq_refl (Ok spawners_5)). Qed.
