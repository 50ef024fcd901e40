(** The tables of area 1 and the areas loaded from them, evaluated once. *)
From Coq Require Import NArith ZArith List.
From Verif Require Import Base.Word Model.Flatbuf Model.FbsLA Model.EncounterLA Model.Trie Model.LaBytes1
  Proofs.FbsFast Proofs.LoadFast Proofs.LaLitCommon.
Import ListNotations.
Open Scope N_scope.

Definition tables_1 : list etable := Eval vm_compute in
  keep (froot (trie_get area_1_trie area_1_size) (fetable (trie_get area_1_trie area_1_size))).
Lemma tables_1_ok :
  froot (trie_get area_1_trie area_1_size) (fetable (trie_get area_1_trie area_1_size)) = Ok tables_1.
Proof. vm_cast_no_check (eq_refl (Ok tables_1)). Qed.
Definition areas_1 : list (N * areaLA) := Eval vm_compute in keep (fload_areas mults infos tables_1 []).
Lemma areas_1_ok : fload_areas mults infos tables_1 [] = Ok areas_1.
Proof. vm_cast_no_check (eq_refl (Ok areas_1)). Qed.
