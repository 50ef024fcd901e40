(** The spawners of area 4, evaluated once. *)
From Coq Require Import NArith ZArith List.
From Verif Require Import Base.Word Model.Flatbuf Model.FbsLA Model.Trie Model.LaSpawn4
  Proofs.FbsFast Proofs.SpawnFast Proofs.LaLitCommon.
Import ListNotations.
Open Scope N_scope.

Definition spawners_4 : list spawner := Eval vm_compute in
  keep (froot (trie_get spawner_4_trie spawner_4_size) (fspawner (trie_get spawner_4_trie spawner_4_size))).
Lemma spawners_4_ok :
  froot (trie_get spawner_4_trie spawner_4_size) (fspawner (trie_get spawner_4_trie spawner_4_size)) =
  Ok spawners_4.
Proof. vm_cast_no_check (eq_refl (Ok spawners_4)). Qed.
