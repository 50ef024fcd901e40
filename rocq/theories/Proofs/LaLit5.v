(** The tables of area 5 and the areas loaded from them, evaluated once. *)
From Coq Require Import NArith ZArith List.
From Verif Require Import Base.Word Model.Flatbuf Model.FbsLA Model.EncounterLA Model.Trie Model.LaBytes5
  Proofs.FbsFast Proofs.LoadFast Proofs.LaLitCommon.
Import ListNotations.
Open Scope N_scope.

Definition tables_5 : list etable := Eval vm_compute in
  keep (froot (trie_get area_5_trie area_5_size) (fetable (trie_get area_5_trie area_5_size))).
Lemma tables_5_ok :
  froot (trie_get area_5_trie area_5_size) (fetable (trie_get area_5_trie area_5_size)) = Ok tables_5.
Proof. vm_cast_no_check (eq_refl (Ok tables_5)). Qed.
Definition areas_5 : list (N * areaLA) := Eval vm_compute in keep (fload_areas mults infos tables_5 []).
Lemma areas_5_ok : fload_areas mults infos tables_5 [] = Ok areas_5.
Proof. vm_cast_no_check (eq_refl (Ok areas_5)). Qed.
