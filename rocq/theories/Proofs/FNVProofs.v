From Coq Require Import NArith List Lia.
From Coq Require Import ZifyN.
From Verif Require Import Base.Word Base.WordLemmas Model.FNV Spec.FNVSpec.
Import ListNotations.
Open Scope N_scope.
Ltac Zify.zify_post_hook ::= idtac.

Definition step1 (hash c : N) : N := N.lxor (w64 (hash * 0x00000100000001B3)) (w64 c).
Definition step1a (hash c : N) : N := w64 (N.lxor hash (w64 c) * 0x00000100000001B3).
Lemma fnv1_fold s : fnv1_64 s = fold_left step1 s fnv_basis.
Proof. reflexivity. Qed.
Lemma fnv1a_fold s : fnv1a_64 s = fold_left step1a s fnv_basis.
Proof. reflexivity. Qed.
Lemma fnv1_is : is_fnv1 fnv1_64.
Proof.
  split; [reflexivity|]. intros s c Hc. rewrite !fnv1_fold, fold_left_app. cbn [fold_left].
  unfold step1 at 1. now rewrite (w64_small c).
Qed.
Lemma fnv1a_is : is_fnv1a fnv1a_64.
Proof.
  split; [reflexivity|]. intros s c Hc. rewrite !fnv1a_fold, fold_left_app. cbn [fold_left].
  unfold step1a at 1. now rewrite (w64_small c).
Qed.

(** The prime is odd, hence invertible modulo 2^64. *)
Lemma prime_inj x y : x < 2^64 -> y < 2^64 -> (x * fnv_prime) mod 2^64 = (y * fnv_prime) mod 2^64 -> x = y.
Proof.
  intros Hx Hy E. set (inv := 14886173955864302971).
  assert (Ei : (fnv_prime * inv) mod 2^64 = 1) by now vm_compute.
  assert (U : forall z, z < 2^64 -> ((z * fnv_prime) mod 2^64 * inv) mod 2^64 = z).
  { intros z Hz. rewrite N.mul_mod_idemp_l by discriminate. rewrite <- N.mul_assoc.
    rewrite <- N.mul_mod_idemp_r by discriminate. rewrite Ei, N.mul_1_r. now apply N.mod_small. }
  rewrite <- (U x Hx), <- (U y Hy), E. reflexivity.
Qed.
Lemma lxor_inj_l a b c : N.lxor a c = N.lxor b c -> a = b.
Proof. intros E. rewrite <- (N.lxor_0_r a), <- (N.lxor_nilpotent c), <- N.lxor_assoc, E, N.lxor_assoc, N.lxor_nilpotent. apply N.lxor_0_r. Qed.

Section Steps.
Variable h : list N -> N.
Hypothesis Hlt : forall s, Forall (fun c => c < 2^64) s -> h s < 2^64.
Variable f : N -> N -> N.
Hypothesis Hf : forall s c, c < 2^64 -> h (s ++ [c]) = f (h s) c.
Hypothesis Hinj : forall x y c, x < 2^64 -> y < 2^64 -> c < 2^64 -> f x c = f y c -> x = y.
Hypothesis Hinjc : forall x c d, x < 2^64 -> c < 2^64 -> d < 2^64 -> f x c = f x d -> c = d.

Lemma suffix_inj t : forall s s', Forall (fun c => c < 2^64) s -> Forall (fun c => c < 2^64) s' ->
  Forall (fun c => c < 2^64) t -> h (s ++ t) = h (s' ++ t) -> h s = h s'.
Proof.
  induction t as [|c t IH]; intros s s' Hs Hs' Ht E; [now rewrite !app_nil_r in E|].
  inversion Ht as [|? ? Hc Ht']; subst.
  assert (G : forall s, Forall (fun c => c < 2^64) s -> Forall (fun c => c < 2^64) (s ++ [c])).
  { intros u Hu. apply Forall_app. split; [exact Hu|now constructor]. }
  replace (s ++ c :: t) with ((s ++ [c]) ++ t) in E by now rewrite <- app_assoc.
  replace (s' ++ c :: t) with ((s' ++ [c]) ++ t) in E by now rewrite <- app_assoc.
  apply IH in E; auto. rewrite !Hf in E by exact Hc. now apply Hinj in E; auto.
Qed.
Lemma one_char s t c d : Forall (fun c => c < 2^64) s -> Forall (fun c => c < 2^64) t -> c < 2^64 -> d < 2^64 ->
  c <> d -> h (s ++ c :: t) <> h (s ++ d :: t).
Proof.
  intros Hs Ht Hc Hd N E. apply N.
  replace (s ++ c :: t) with ((s ++ [c]) ++ t) in E by now rewrite <- app_assoc.
  replace (s ++ d :: t) with ((s ++ [d]) ++ t) in E by now rewrite <- app_assoc.
  apply suffix_inj in E; [|apply Forall_app; split; [exact Hs|now constructor]
                          |apply Forall_app; split; [exact Hs|now constructor]|exact Ht].
  rewrite !Hf in E by assumption. apply Hinjc in E; auto.
Qed.
(** Hashing can be continued from the hash of a prefix. *)
Lemma incremental t : forall s s', Forall (fun c => c < 2^64) t -> h s = h s' -> h (s ++ t) = h (s' ++ t).
Proof.
  induction t as [|c t IH]; intros s s' Ht E; [now rewrite !app_nil_r|].
  inversion Ht as [|? ? Hc Ht']; subst.
  replace (s ++ c :: t) with ((s ++ [c]) ++ t) by now rewrite <- app_assoc.
  replace (s' ++ c :: t) with ((s' ++ [c]) ++ t) by now rewrite <- app_assoc.
  apply IH; [exact Ht'|]. now rewrite !Hf, E.
Qed.
End Steps.

Lemma fnv1_lt s : Forall (fun c => c < 2^64) s -> fnv1_64 s < 2^64.
Proof.
  induction s as [|c s IH] using rev_ind; intros H; [reflexivity|].
  apply Forall_app in H. destruct H as [Hs Hc]. inversion Hc; subst.
  destruct fnv1_is as [_ S]. rewrite S by assumption. apply (lxor_lt _ _ 64); [apply N.mod_lt; discriminate|assumption].
Qed.
Lemma fnv1a_lt s : Forall (fun c => c < 2^64) s -> fnv1a_64 s < 2^64.
Proof.
  induction s as [|c s IH] using rev_ind; intros H; [reflexivity|].
  apply Forall_app in H. destruct H as [Hs Hc]. inversion Hc; subst.
  destruct fnv1a_is as [_ S]. rewrite S by assumption. apply N.mod_lt; discriminate.
Qed.
Lemma fnv1_inj x y c : x < 2^64 -> y < 2^64 -> c < 2^64 ->
  N.lxor ((x * fnv_prime) mod 2^64) c = N.lxor ((y * fnv_prime) mod 2^64) c -> x = y.
Proof. intros Hx Hy Hc E. apply lxor_inj_l in E. now apply prime_inj. Qed.
Lemma fnv1_injc x c d : x < 2^64 -> c < 2^64 -> d < 2^64 ->
  N.lxor ((x * fnv_prime) mod 2^64) c = N.lxor ((x * fnv_prime) mod 2^64) d -> c = d.
Proof. intros _ _ _ E. rewrite !(N.lxor_comm (_ mod _)) in E. now apply lxor_inj_l in E. Qed.
Lemma fnv1a_inj x y c : x < 2^64 -> y < 2^64 -> c < 2^64 ->
  (N.lxor x c * fnv_prime) mod 2^64 = (N.lxor y c * fnv_prime) mod 2^64 -> x = y.
Proof.
  intros Hx Hy Hc E. apply prime_inj in E; [now apply lxor_inj_l in E| |]; apply (lxor_lt _ _ 64); assumption.
Qed.
Lemma fnv1a_injc x c d : x < 2^64 -> c < 2^64 -> d < 2^64 ->
  (N.lxor x c * fnv_prime) mod 2^64 = (N.lxor x d * fnv_prime) mod 2^64 -> c = d.
Proof.
  intros Hx Hc Hd E. apply prime_inj in E; [|apply (lxor_lt _ _ 64); assumption|apply (lxor_lt _ _ 64); assumption].
  rewrite !(N.lxor_comm x) in E. now apply lxor_inj_l in E.
Qed.

Lemma fnv_one_char s t c d : Forall (fun c => c < 2^64) s -> Forall (fun c => c < 2^64) t -> c < 2^64 -> d < 2^64 ->
  c <> d -> fnv1_64 (s ++ c :: t) <> fnv1_64 (s ++ d :: t) /\ fnv1a_64 (s ++ c :: t) <> fnv1a_64 (s ++ d :: t).
Proof.
  intros Hs Ht Hc Hd N. split.
  - apply (one_char fnv1_64 fnv1_lt _ (proj2 fnv1_is) fnv1_inj fnv1_injc); assumption.
  - apply (one_char fnv1a_64 fnv1a_lt _ (proj2 fnv1a_is) fnv1a_inj fnv1a_injc); assumption.
Qed.
Lemma fnv_incremental s s' t : Forall (fun c => c < 2^64) t ->
  (fnv1_64 s = fnv1_64 s' -> fnv1_64 (s ++ t) = fnv1_64 (s' ++ t)) /\
  (fnv1a_64 s = fnv1a_64 s' -> fnv1a_64 (s ++ t) = fnv1a_64 (s' ++ t)).
Proof.
  intros Ht. split; intros E.
  - exact (incremental fnv1_64 (fun x c => N.lxor ((x * fnv_prime) mod 2^64) c) (proj2 fnv1_is) t s s' Ht E).
  - exact (incremental fnv1a_64 (fun x c => (N.lxor x c * fnv_prime) mod 2^64) (proj2 fnv1a_is) t s s' Ht E).
Qed.
(** A common suffix neither creates nor removes a collision of the prefixes. *)
Lemma fnv_suffix s s' t : Forall (fun c => c < 2^64) s -> Forall (fun c => c < 2^64) s' -> Forall (fun c => c < 2^64) t ->
  (fnv1_64 (s ++ t) = fnv1_64 (s' ++ t) <-> fnv1_64 s = fnv1_64 s') /\
  (fnv1a_64 (s ++ t) = fnv1a_64 (s' ++ t) <-> fnv1a_64 s = fnv1a_64 s').
Proof.
  intros Hs Hs' Ht. split; split.
  - now apply (suffix_inj fnv1_64 fnv1_lt _ (proj2 fnv1_is) fnv1_inj).
  - now apply fnv_incremental.
  - now apply (suffix_inj fnv1a_64 fnv1a_lt _ (proj2 fnv1a_is) fnv1a_inj).
  - now apply fnv_incremental.
Qed.
