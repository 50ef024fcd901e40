(** The massive outbreaks, evaluated once. *)
From Coq Require Import NArith ZArith List.
From Verif Require Import Base.Word Model.Flatbuf Model.FbsLA Model.Trie Model.LaOutbreakGroup Model.LaOutbreakLottery
  Proofs.FbsFast Proofs.SpawnFast Proofs.LaLitCommon.
Import ListNotations.
Open Scope N_scope.

Definition groups : list group8a := Eval vm_compute in
  keep (froot (trie_get outbreak_group_trie outbreak_group_size) (fgroup (trie_get outbreak_group_trie outbreak_group_size))).
Lemma groups_ok :
  froot (trie_get outbreak_group_trie outbreak_group_size) (fgroup (trie_get outbreak_group_trie outbreak_group_size)) =
  Ok groups.
Proof. vm_cast_no_check (eq_refl (Ok groups)). Qed.
Definition lotteries : list lottery := Eval vm_compute in
  keep (froot (trie_get outbreak_lottery_trie outbreak_lottery_size) (flottery (trie_get outbreak_lottery_trie outbreak_lottery_size))).
Lemma lotteries_ok :
  froot (trie_get outbreak_lottery_trie outbreak_lottery_size) (flottery (trie_get outbreak_lottery_trie outbreak_lottery_size)) =
  Ok lotteries.
Proof. vm_cast_no_check (eq_refl (Ok lotteries)). Qed.
