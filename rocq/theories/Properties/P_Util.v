(** Properties C37 to C39. *)
From Coq Require Import NArith List String.
From Verif Require Import Base.Word Model.Util Spec.UtilSpec Proofs.UtilProofs.
Import ListNotations.
Open Scope N_scope.

(** C37. Byte j of the result is byte 3 - j of the argument; twice is the identity. *)
Theorem C37_change_endian_reverses_bytes : forall v j, v < 2^32 -> j <= 3 ->
  (change_endian_u32 v / 2^(8 * j)) mod 2^8 = (v / 2^(8 * (3 - j))) mod 2^8.
Proof. exact endian_byte. Qed.
Print Assumptions C37_change_endian_reverses_bytes.
Theorem C37_change_endian_involution : forall v, v < 2^32 ->
  change_endian_u32 (change_endian_u32 v) = v /\ change_endian_u32 v < 2^32.
Proof. intros v H. split; [now apply endian_twice|apply endian_lt]. Qed.
Print Assumptions C37_change_endian_involution.
Example C37_case : change_endian_u32 0x12345678 = 0x78563412.
Proof. now vm_compute. Qed.

(** C38. *)
Theorem C38_rotations_u32 : forall m v c, v < 2^32 -> rot_count_ok m 32 c ->
  (exists r, rotate_left_u32 m v c = Ok r /\ rotated 32 v c r) /\
  (exists r, rotate_right_u32 m v c = Ok r /\ rotated 32 v (32 - c) r) /\
  rbind (rotate_left_u32 m v c) (fun r => rotate_right_u32 m r c) = Ok v /\
  rbind (rotate_right_u32 m v c) (fun r => rotate_left_u32 m r c) = Ok v.
Proof. exact rotations_32. Qed.
Print Assumptions C38_rotations_u32.
Theorem C38_rotations_u64 : forall m v c, v < 2^64 -> rot_count_ok m 64 c ->
  (exists r, rotate_left_u64 m v c = Ok r /\ rotated 64 v c r) /\
  (exists r, rotate_right_u64 m v c = Ok r /\ rotated 64 v (64 - c) r) /\
  rbind (rotate_left_u64 m v c) (fun r => rotate_right_u64 m r c) = Ok v /\
  rbind (rotate_right_u64 m v c) (fun r => rotate_left_u64 m r c) = Ok v.
Proof. exact rotations_64. Qed.
Print Assumptions C38_rotations_u64.
Theorem C38_rotations_add_u32 : forall m v a b, v < 2^32 -> rot_count_ok m 32 a -> rot_count_ok m 32 b ->
  rbind (rotate_left_u32 m v a) (fun r => rotate_left_u32 m r b) = rotate_left_u32 m v ((a + b) mod 32).
Proof. exact rotations_add_32. Qed.
Print Assumptions C38_rotations_add_u32.
Theorem C38_rotations_add_u64 : forall m v a b, v < 2^64 -> rot_count_ok m 64 a -> rot_count_ok m 64 b ->
  rot_count_ok m 64 ((a + b) mod 64) ->
  rbind (rotate_left_u64 m v a) (fun r => rotate_left_u64 m r b) = rotate_left_u64 m v ((a + b) mod 64).
Proof. exact rotations_add_64. Qed.
Print Assumptions C38_rotations_add_u64.
(** Counts 0 and the width are the identity ... *)
Theorem C38_rotations_identity_u32 : forall v, v < 2^32 -> forall c, c = 0 \/ c = 32 ->
  forall m, rotate_left_u32 m v c = Ok v /\ rotate_right_u32 m v c = Ok v.
Proof. exact rotations_identity. Qed.
Print Assumptions C38_rotations_identity_u32.
(** ... for 64 bits only without numba: compiled code would shift a 64-bit value by 64. *)
Theorem C38_rotations_identity_u64 : forall v, v < 2^64 -> forall c, c = 0 \/ c = 64 ->
  rotate_left_u64 NumPy v c = Ok v /\ rotate_right_u64 NumPy v c = Ok v /\
  rotate_left_u64 Numba v c = Raise UndefinedShift /\ rotate_right_u64 Numba v c = Raise UndefinedShift.
Proof. exact rotations_identity_64. Qed.
Print Assumptions C38_rotations_identity_u64.
Example C38_case : rot_count_ok Numba 64 37 /\ rot_count_ok NumPy 32 32 /\
  rotate_left_u64 Numba 0x123456789ABCDEF0 4 = Ok 0x23456789ABCDEF01 /\
  rotate_right_u32 NumPy 0x12345678 8 = Ok 0x78123456.
Proof. now vm_compute. Qed.

(** C39. *)
Theorem C39_hex_32_renders : forall m num, num < 2^32 ->
  exists s, hex_32 m num = Ok s /\ String.length s = 8%nat /\ hex_value s = Some num.
Proof. exact hex_32_ok. Qed.
Print Assumptions C39_hex_32_renders.
Theorem C39_hex_32_injective : forall m a b, a < 2^32 -> b < 2^32 -> hex_32 m a = hex_32 m b -> a = b.
Proof. exact hex_32_inj. Qed.
Print Assumptions C39_hex_32_injective.
(** Larger numbers are rejected without numba. *)
Theorem C39_hex_32_too_large : forall num, 2^32 <= num -> hex_32 NumPy num = Raise IndexError.
Proof. exact hex_32_big. Qed.
Print Assumptions C39_hex_32_too_large.
Example C39_case : hex_32 Numba 0x0BADF00D = Ok "0BADF00D"%string /\ hex_value "0BADF00D" = Some 0x0BADF00D.
Proof. now vm_compute. Qed.
