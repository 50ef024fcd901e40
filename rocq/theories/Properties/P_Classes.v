(** Property C77: the published generator classes. *)
From Coq Require Import NArith List.
From Verif Require Import Base.Word Spec.LcrngSpec Model.Compat Model.Lcrng32 Model.Lcrng64 Model.LcrngClasses
  Spec.ClassSpec Proofs.ClassProofs.
Import ListNotations.
Open Scope N_scope.

(** C77. Whatever the Python version, one step of each class is one step of the generator
    of the games. *)
Theorem C77_steps_32 : forall minor p mult add, In (p, (mult, add)) games32 ->
  exists a m, consts_of32 minor p = Ok (a, m) /\ forall s, lcrng32_next a m s = lcg 32 mult add s.
Proof. exact class_steps32. Qed.
Print Assumptions C77_steps_32.
Theorem C77_steps_64 : forall minor p mult add, In (p, (mult, add)) games64 ->
  exists a m, consts_of64 minor p = Ok (a, m) /\ forall s, lcrng64_next a m s = lcg 64 mult add s.
Proof. exact class_steps64. Qed.
Print Assumptions C77_steps_64.
(** Each reverse class undoes its partner, any number of steps. *)
Theorem C77_reverse_class_32 : forall minor p q, In (p, q) pairs32 ->
  exists a m a' m', consts_of32 minor p = Ok (a, m) /\ consts_of32 minor q = Ok (a', m') /\
  forall s n, s < 2^32 -> n < 2^32 ->
    lcrng32_advance a' m' (lcrng32_advance a m s n) n = s /\
    lcrng32_advance a m (lcrng32_advance a' m' s n) n = s.
Proof. exact class_reverse32. Qed.
Print Assumptions C77_reverse_class_32.
Theorem C77_reverse_class_64 : forall minor,
  exists a m a' m', consts_of64 minor BWRNG = Ok (a, m) /\ consts_of64 minor BWRNGR = Ok (a', m') /\
  forall s n, s < 2^64 -> n < 2^64 ->
    lcrng64_advance a' m' (lcrng64_advance a m s n) n = s /\
    lcrng64_advance a m (lcrng64_advance a' m' s n) n = s.
Proof. exact class_reverse64. Qed.
Print Assumptions C77_reverse_class_64.
(** next_rand of each class. *)
Theorem C77_rands_32 : forall minor mode p r, In (p, r) rands32 ->
  exists a m, consts_of32 minor p = Ok (a, m) /\
  forall s max, 2 <= max < 2^16 ->
    snd (lcrng32_next_rand mode (p32_dist p) a m s max) =
    match r with Some f => Ok (f (lcrng32_next a m s / 2^16) max) | None => Raise NotImplementedError end.
Proof. exact class_rands32. Qed.
Print Assumptions C77_rands_32.
Theorem C77_rands_64 : forall minor p, In p [BWRNG; BWRNGR] ->
  exists a m, consts_of64 minor p = Ok (a, m) /\
  forall s max, 1 <= max <= 2^32 ->
    snd (lcrng64_next_rand (p64_dist p) a m s max) = Ok (lcrng64_next a m s / 2^32 * max / 2^32).
Proof. exact class_rands64. Qed.
Print Assumptions C77_rands_64.
(** The tables speak of every published class. *)
Example C77_case : map fst games32 = published32 /\ map fst games64 = published64 /\
  consts_of64 7 BWRNGR = Ok (0x9B1AE6E9A384E6F9, 0xDEDCEDAE9638806D).
Proof. repeat split; now vm_compute. Qed.
