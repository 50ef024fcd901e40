(** The lookups of Legends Arceus species, evaluated once. *)
From Coq Require Import NArith ZArith List.
From Verif Require Import Base.Word Model.Flatbuf Model.FbsLA Model.EncounterLA Model.Trie
  Model.LaBytesEncount Model.LaBytesMisc Model.BundledLA Proofs.FbsFast.
Import ListNotations.
Open Scope N_scope.

Definition keep {A} (r : res (list A)) : list A := match r with Ok l => l | Raise _ => [] end.
Definition mult_list : list multiplier := Eval vm_compute in
  keep (froot (trie_get poke_encount_trie poke_encount_size) (fmultiplier (trie_get poke_encount_trie poke_encount_size))).
Lemma mult_list_ok :
  froot (trie_get poke_encount_trie poke_encount_size) (fmultiplier (trie_get poke_encount_trie poke_encount_size)) =
  Ok mult_list.
Proof. vm_cast_no_check (eq_refl (Ok mult_list)). Qed.
Definition misc_list : list misc := Eval vm_compute in
  keep (froot (trie_get poke_misc_trie poke_misc_size) (fmisc (trie_get poke_misc_trie poke_misc_size))).
Lemma misc_list_ok :
  froot (trie_get poke_misc_trie poke_misc_size) (fmisc (trie_get poke_misc_trie poke_misc_size)) = Ok misc_list.
Proof. vm_cast_no_check (eq_refl (Ok misc_list)). Qed.
Definition mults : multipliers := Eval vm_compute in
  dict_by sf_eqb (fun m => (mu_species m, or_zero (mu_form m))) mult_list.
Lemma mults_dict : dict_by sf_eqb (fun m => (mu_species m, or_zero (mu_form m))) mult_list = mults.
Proof. vm_cast_no_check (eq_refl mults). Qed.
Definition infos : miscs := Eval vm_compute in
  dict_by sf_eqb (fun m => (mi_species m, or_zero (mi_form m))) misc_list.
Lemma infos_dict : dict_by sf_eqb (fun m => (mi_species m, or_zero (mi_form m))) misc_list = infos.
Proof. vm_cast_no_check (eq_refl infos). Qed.

Lemma mults_ok : ENCOUNTER_MULTIPLIER_LA = Ok mults.
Proof.
  unfold ENCOUNTER_MULTIPLIER_LA.
  rewrite (multiplier_table_ok _ _ (trie_get_ok poke_encount_trie poke_encount_size)), mult_list_ok.
  cbn [rmap snd]. rewrite mults_dict. exact eq_refl.
Qed.
Lemma infos_ok : POKE_MISC_LA = Ok infos.
Proof.
  unfold POKE_MISC_LA.
  rewrite (misc_table_ok _ _ (trie_get_ok poke_misc_trie poke_misc_size)), misc_list_ok.
  cbn [rmap snd]. rewrite infos_dict. exact eq_refl.
Qed.
