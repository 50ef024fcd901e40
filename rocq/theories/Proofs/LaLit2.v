(** The tables of area 2 and the areas loaded from them, evaluated once. *)
From Coq Require Import NArith ZArith List.
From Verif Require Import Base.Word Model.Flatbuf Model.FbsLA Model.EncounterLA Model.Trie Model.LaBytes2
  Proofs.FbsFast Proofs.LoadFast Proofs.LaLitCommon.
Import ListNotations.
Open Scope N_scope.

Definition tables_2 : list etable := Eval vm_compute in
  keep (froot (trie_get area_2_trie area_2_size) (fetable (trie_get area_2_trie area_2_size))).
Lemma tables_2_ok :
  froot (trie_get area_2_trie area_2_size) (fetable (trie_get area_2_trie area_2_size)) = Ok tables_2.
Proof. vm_cast_no_check (eq_refl (Ok tables_2)). Qed.
Definition areas_2 : list (N * areaLA) := Eval vm_compute in keep (fload_areas mults infos tables_2 []).
Lemma areas_2_ok : fload_areas mults infos tables_2 [] = Ok areas_2.
Proof. vm_cast_no_check (eq_refl (Ok areas_2)). Qed.
