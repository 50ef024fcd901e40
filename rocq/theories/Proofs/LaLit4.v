(** The tables of area 4 and the areas loaded from them, evaluated once. *)
From Coq Require Import NArith ZArith List.
From Verif Require Import Base.Word Model.Flatbuf Model.FbsLA Model.EncounterLA Model.Trie Model.LaBytes4
  Proofs.FbsFast Proofs.LoadFast Proofs.LaLitCommon.
Import ListNotations.
Open Scope N_scope.

Definition tables_4 : list etable := Eval vm_compute in
  keep (froot (trie_get area_4_trie area_4_size) (fetable (trie_get area_4_trie area_4_size))).
Lemma tables_4_ok :
  froot (trie_get area_4_trie area_4_size) (fetable (trie_get area_4_trie area_4_size)) = Ok tables_4.
Proof. vm_cast_no_check (eq_refl (Ok tables_4)). Qed.
Definition areas_4 : list (N * areaLA) := Eval vm_compute in keep (fload_areas mults infos tables_4 []).
Lemma areas_4_ok : fload_areas mults infos tables_4 [] = Ok areas_4.
Proof. vm_cast_no_check (eq_refl (Ok areas_4)). Qed.
