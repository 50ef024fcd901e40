(** Property C96: jumps by NumPy integers. *)
From Coq Require Import NArith List Lia.
From Verif Require Import Base.Word Model.Lcrng32 Model.Lcrng64 Model.Scalars Proofs.ScalarProofs.
Import ListNotations.
Open Scope N_scope.

(** Python ints, signed NumPy integers and unsigned ones of less than 64 bits, among them
    the np.uint32 that the 32-bit generators ask for, jump as the same Python int does:
    the same seed, and the same returned number or exception. *)
Theorem C96_jump_partial : forall add mult seed adv, (forall n, adv <> UInt 64 n) ->
  lcrng32_jump_of add mult seed adv = lcrng32_jump add mult seed (value adv) /\
  lcrng64_jump_of add mult seed adv = lcrng64_jump add mult seed (value adv).
Proof.
  intros add mult seed adv H. apply jump_same. destruct adv as [n|w n|n]; cbn; [exact I| |exact I].
  intros ->. exact (H n eq_refl).
Qed.
Print Assumptions C96_jump_partial.
Theorem C96_const_jump_partial : forall add mult adv, (forall n, adv <> UInt 64 n) ->
  lcrng32_const_jump_of add mult adv = lcrng32_const_jump add mult (value adv) /\
  lcrng64_const_jump_of add mult adv = lcrng64_const_jump add mult (value adv).
Proof.
  intros add mult adv H. apply const_jump_same. destruct adv as [n|w n|n]; cbn; [exact I| |exact I].
  intros ->. exact (H n eq_refl).
Qed.
Print Assumptions C96_const_jump_partial.
(** But the np.uint64 that the 64-bit generators ask for always raises TypeError, unless it
    is 0: without numba for [jump], always for [const_jump]. *)
Theorem C96_jump_refuted : forall add mult seed n, n <> 0 ->
  lcrng32_jump_of add mult seed (UInt 64 n) = (seed, Raise TypeError) /\
  lcrng64_jump_of add mult seed (UInt 64 n) = (seed, Raise TypeError).
Proof. exact jump_uint64. Qed.
Print Assumptions C96_jump_refuted.
Theorem C96_const_jump_refuted : forall add mult n, n <> 0 ->
  lcrng32_const_jump_of add mult (UInt 64 n) = Raise TypeError /\
  lcrng64_const_jump_of add mult (UInt 64 n) = Raise TypeError.
Proof. exact const_jump_uint64. Qed.
Print Assumptions C96_const_jump_refuted.

(** BWRNG, five advances, as a Python int, as np.uint32 and as np.uint64. *)
Example C96_case :
  let jump := lcrng64_jump_of 0x269EC3 0x5D588B656C078965 1 in
  snd (jump (PyInt 5)) = snd (jump (UInt 32 5)) /\ snd (jump (PyInt 5)) = Ok 0x756B99A0CFD8D73C /\
  snd (jump (UInt 64 5)) = Raise TypeError /\ snd (jump (UInt 64 0)) = Ok 1.
Proof. now vm_compute. Qed.
