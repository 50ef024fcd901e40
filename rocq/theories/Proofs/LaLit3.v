(** The tables of area 3 and the areas loaded from them, evaluated once. *)
From Coq Require Import NArith ZArith List.
From Verif Require Import Base.Word Model.Flatbuf Model.FbsLA Model.EncounterLA Model.Trie Model.LaBytes3
  Proofs.FbsFast Proofs.LoadFast Proofs.LaLitCommon.
Import ListNotations.
Open Scope N_scope.

Definition tables_3 : list etable := Eval vm_compute in
  keep (froot (trie_get area_3_trie area_3_size) (fetable (trie_get area_3_trie area_3_size))).
Lemma tables_3_ok :
  froot (trie_get area_3_trie area_3_size) (fetable (trie_get area_3_trie area_3_size)) = Ok tables_3.
Proof. vm_cast_no_check (eq_refl (Ok tables_3)). Qed.
Definition areas_3 : list (N * areaLA) := Eval vm_compute in keep (fload_areas mults infos tables_3 []).
Lemma areas_3_ok : fload_areas mults infos tables_3 [] = Ok areas_3.
Proof. vm_cast_no_check (eq_refl (Ok areas_3)). Qed.
