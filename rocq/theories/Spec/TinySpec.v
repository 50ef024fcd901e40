(** tinymt32 of Saito and Matsumoto (tinymt32.c), parameters mat1 = 8F7011EE,
    mat2 = FC78FF1F, tmat = 3793FDFF, on a state of four words. *)
From Coq Require Import NArith List.
From Verif Require Import Base.Word Model.TinyMT.
Import ListNotations.
Open Scope N_scope.

Definition tstate : Type := N * N * N * N.
Definition MAT1 : N := 0x8f7011ee.
Definition MAT2 : N := 0xfc78ff1f.
Definition TMAT : N := 0x3793fdff.

(** tinymt32_next_state *)
Definition tinymt32_next (s : tstate) : tstate :=
  let '(s0, s1, s2, s3) := s in
  let x := N.lxor (s0 mod 2^31) (N.lxor s1 s2) in
  let x := N.lxor x (x * 2 mod 2^32) in
  let y := N.lxor s3 (N.lxor (s3 / 2) x) in
  (s1,
   N.lxor s2 (if N.odd y then MAT1 else 0),
   N.lxor (N.lxor x (y * 2^10 mod 2^32)) (if N.odd y then MAT2 else 0),
   y).

(** tinymt32_temper *)
Definition tinymt32_temper (s : tstate) : N :=
  let '(s0, s1, s2, s3) := s in
  let t1 := (s0 + s2 / 2^8) mod 2^32 in
  N.lxor (N.lxor s3 t1) (if N.odd t1 then TMAT else 0).

(** tinymt32_init: words u0, u1, ... each made from the previous one; the state is
    u4..u7, then period certification, then eight steps. *)
Definition tinymt32_init (seed : N) : tstate :=
  let mix i prev base := N.lxor base ((1812433253 * N.lxor prev (prev / 2^30) + i) mod 2^32) in
  let u0 := seed mod 2^32 in
  let u1 := mix 1 u0 MAT1 in
  let u2 := mix 2 u1 MAT2 in
  let u3 := mix 3 u2 TMAT in
  let u4 := mix 4 u3 u0 in
  let u5 := mix 5 u4 u1 in
  let u6 := mix 6 u5 u2 in
  let u7 := mix 7 u6 u3 in
  let s := if (u4 mod 2^31 + u5 + u6 + u7 =? 0) then (84, 73, 78, 89) else (u4, u5, u6, u7) in
  N.iter 8 tinymt32_next s.

(** The state before period certification. *)
Definition tinymt32_words (seed : N) : tstate :=
  let mix i prev base := N.lxor base ((1812433253 * N.lxor prev (prev / 2^30) + i) mod 2^32) in
  let u0 := seed mod 2^32 in
  let u1 := mix 1 u0 MAT1 in
  let u2 := mix 2 u1 MAT2 in
  let u3 := mix 3 u2 TMAT in
  let u4 := mix 4 u3 u0 in
  let u5 := mix 5 u4 u1 in
  let u6 := mix 6 u5 u2 in
  (u4, u5, u6, mix 7 u6 u3).

(** Output number n (from 0) after initialisation with [seed]. *)
Definition tinymt32_output (seed : N) (n : N) : N :=
  tinymt32_temper (N.iter (n + 1) tinymt32_next (tinymt32_init seed)).

(** The 127 bits that determine the future: bit 31 of the first word is ignored. *)
Definition tiny127 (s : tstate) : tstate :=
  let '(s0, s1, s2, s3) := s in (s0 mod 2^31, s1, s2, s3).
Definition tiny_words (s : tstate) : Prop :=
  let '(s0, s1, s2, s3) := s in s0 < 2^32 /\ s1 < 2^32 /\ s2 < 2^32 /\ s3 < 2^32.
(** The array holding a state. *)
Definition tiny_arr (s : tstate) : list N := let '(s0, s1, s2, s3) := s in [s0; s1; s2; s3].

(** The object as a machine on reference states. *)
Definition tiny_abs (s : tstate) (op : tiny_op) : tstate * outcome :=
  let s' := tinymt32_next s in
  let r := tinymt32_temper s' in
  match op with
  | TNext => (s', OVal r)
  | TTemper => (s, OVal (tinymt32_temper s))
  | TShuffle => (s', ONone)
  | TAdvance n => (N.iter n tinymt32_next s, ONone)
  | TRand maximum => (s', OVal (r * maximum / 2^32))
  | TRandMod maximum => (s', OVal (r mod maximum))
  | TReInit seed => (tinymt32_init seed, ONone)
  end.
Fixpoint tiny_abs_run (s : tstate) (ops : list tiny_op) : list outcome :=
  match ops with
  | [] => []
  | op :: t => let '(s, o) := tiny_abs s op in o :: tiny_abs_run s t
  end.
Definition tiny_op_valid (op : tiny_op) : Prop :=
  match op with
  | TRand maximum => maximum < 2^32
  | TRandMod maximum => 0 < maximum < 2^32
  | _ => True
  end.

Definition tiny_reached (m : mode) (st : list N) : Prop :=
  exists junk seed ops, length junk = 4%nat /\ st = fst (tiny_calls m (tiny_new m junk seed) ops).
