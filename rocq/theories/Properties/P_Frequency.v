(** Properties C74 to C76: what outputs say about the state of a twister, and how often
    each value comes up. *)
From Coq Require Import NArith List.
From Verif Require Import Base.Word Model.Lcrng32 Model.Lcrng64 Model.LcrngClasses Model.MT Model.SFMT
  Model.Xorshift Model.Xoroshiro Model.TinyMT Spec.LcrngSpec Spec.MTHistory Spec.SFMTHistory
  Spec.XorshiftSpec Spec.TinySpec Spec.ObjectSpec Spec.CountSpec Proofs.StateRecover Proofs.Frequency Proofs.RandFrequency.
Import ListNotations.
Open Scope N_scope.

(** C74. After 624 consecutive outputs of a Mersenne Twister all later ones are known,
    whatever its state and wherever in its block it is. *)
Theorem C74_mt_624_outputs_give_the_rest : forall m m' self self', mt_object self -> mt_object self' ->
  mt_outputs_of m self 624 = mt_outputs_of m' self' 624 ->
  forall k, mt_outputs_of m self k = mt_outputs_of m' self' k.
Proof. exact mt_outputs_determine. Qed.
Print Assumptions C74_mt_624_outputs_give_the_rest.
(** 623 are not enough. *)
Theorem C74_mt_623_not_enough : exists self self', mt_object self /\ mt_object self' /\
  mt_outputs_of NumPy self 623 = mt_outputs_of NumPy self' 623 /\
  mt_outputs_of NumPy self 624 <> mt_outputs_of NumPy self' 624.
Proof.
  exists (mkMT (repeat 0 624) 0), (mkMT (repeat 0 623 ++ [1]) 0).
  split; [split; now vm_compute|]. split; [split; now vm_compute|].
  split; [now vm_compute|]. intros E. apply (f_equal (fun l => nth 623 l ONone)) in E. vm_compute in E. discriminate E.
Qed.
Print Assumptions C74_mt_623_not_enough.
(** 312 outputs of an SFMT, 64 bits each, if it is known whether they start in the middle
    of a 128-bit word. *)
Theorem C74_sfmt_312_outputs_give_the_rest : forall m m' self self', sfmt_object self -> sfmt_object self' ->
  sfmt_in_middle self = sfmt_in_middle self' ->
  sfmt_outputs_of m self 312 = sfmt_outputs_of m' self' 312 ->
  forall k, sfmt_outputs_of m self k = sfmt_outputs_of m' self' k.
Proof. exact sfmt_outputs_determine. Qed.
Print Assumptions C74_sfmt_312_outputs_give_the_rest.
Theorem C74_sfmt_311_not_enough : exists self self', sfmt_object self /\ sfmt_object self' /\
  sfmt_in_middle self = sfmt_in_middle self' /\
  sfmt_outputs_of NumPy self 311 = sfmt_outputs_of NumPy self' 311 /\
  sfmt_outputs_of NumPy self 312 <> sfmt_outputs_of NumPy self' 312.
Proof.
  assert (F : forall l, forallb (fun w => w <? 2^32) l = true -> Forall (fun w => w < 2^32) l).
  { intros l H. apply Forall_forall. intros w Hw. apply N.ltb_lt. exact (proj1 (forallb_forall _ l) H w Hw). }
  exists (mkSFMT (repeat 0 624) 0), (mkSFMT (repeat 0 623 ++ [1]) 0).
  split; [split; [now vm_compute|split; [apply F; now vm_compute|split; [discriminate|reflexivity]]]|].
  split; [split; [now vm_compute|split; [apply F; now vm_compute|split; [discriminate|reflexivity]]]|].
  split; [reflexivity|]. split; [now vm_compute|].
  intros E. apply (f_equal (fun l => nth 311 l ONone)) in E. vm_compute in E. discriminate E.
Qed.
Print Assumptions C74_sfmt_311_not_enough.
(** The constructor and the methods only make such objects. *)
Theorem C74_reached_objects : forall m,
  (forall self, mt_reached m self -> mt_object self) /\ (forall self, sfmt_reached m self -> sfmt_object self).
Proof. intros m. split; [exact (mt_reached_object m)|exact (sfmt_reached_object m)]. Qed.
Print Assumptions C74_reached_objects.
(** An object with consumed outputs. *)
Example C74_case : mt_object (mkMT (repeat 7 624) 100) /\ sfmt_in_middle (mkSFMT (repeat 7 624) 102) = true.
Proof. split; [split; now vm_compute|reflexivity]. Qed.

(** C75. In 2^32 calls from any seed a 32-bit generator returns every 16-bit value 2^16
    times. *)
Theorem C75_lcrng32_values_equally_often : forall minor p, In p published32 ->
  exists add mult, consts_of32 minor p = Ok (add, mult) /\
  forall seed v, seed < 2^32 -> v < 2^16 ->
  how_many (fun i => snd (lcrng32_next_u16 add mult (lcrng32_advance add mult seed i)) =? v) (2^32) = 2^16.
Proof. exact lcrng32_frequency. Qed.
Print Assumptions C75_lcrng32_values_equally_often.
(** Bounded rands by modulo and by reciprocal division: the exact number of times each
    value comes up. *)
Theorem C75_lcrng32_bounded_rands : forall minor p, In p published32 ->
  exists add mult, consts_of32 minor p = Ok (add, mult) /\
  forall m seed max v, seed < 2^32 ->
  (1 <= max < 2^16 -> v < max ->
   how_many (fun i => res_eqb (snd (lcrng32_next_rand m D32_MODULO add mult (lcrng32_advance add mult seed i) max)) v) (2^32)
   = 2^16 * with_remainder (2^16) max v) /\
  (2 <= max < 2^16 -> v < max ->
   how_many (fun i => res_eqb (snd (lcrng32_next_rand m D32_RECIPROCAL_DIVISION add mult (lcrng32_advance add mult seed i) max)) v) (2^32)
   = 2^16 * with_quotient (2^16) (65535 / max + 1) v).
Proof. exact rands_frequency. Qed.
Print Assumptions C75_lcrng32_bounded_rands.
Theorem C75_lcrng64_values_equally_often : forall minor p, In p published64 ->
  exists add mult, consts_of64 minor p = Ok (add, mult) /\
  forall seed v, seed < 2^64 -> v < 2^32 ->
  how_many (fun i => snd (lcrng64_next_u32 add mult (lcrng64_advance add mult seed i)) =? v) (2^64) = 2^32.
Proof. exact lcrng64_frequency. Qed.
Print Assumptions C75_lcrng64_values_equally_often.
Theorem C75_lcrng64_bounded_rands : forall minor p, In p published64 ->
  exists add mult, consts_of64 minor p = Ok (add, mult) /\
  forall seed max v, seed < 2^64 -> 1 <= max <= 2^32 -> v < max ->
  how_many (fun i => res_eqb (snd (lcrng64_next_rand D64_MULTIPLICATION_SHIFT add mult (lcrng64_advance add mult seed i) max)) v) (2^64)
  = 2^32 * with_share (2^32) max v.
Proof. exact rands64_frequency. Qed.
Print Assumptions C75_lcrng64_bounded_rands.
(** The others cannot be in the zero state, so zero comes up once less. *)
Theorem C75_xorshift_values : forall m st v, xs_words st -> st <> xs_zero -> v < 2^32 ->
  how_many (fun i => snd (xs_next m (xs_advance m st i)) =? v) (2^128 - 1) = if v =? 0 then 2^96 - 1 else 2^96.
Proof. exact xs_frequency. Qed.
Print Assumptions C75_xorshift_values.
Theorem C75_xoroshiro_values : forall st v, xo_words st -> st <> xo_zero -> v < 2^64 ->
  how_many (fun i => snd (xo_next (xo_advance st i)) =? v) (2^128 - 1) = if v =? 0 then 2^64 - 1 else 2^64.
Proof. exact xo_frequency. Qed.
Print Assumptions C75_xoroshiro_values.
Theorem C75_splitmix_xoroshiro_values : forall st v, xo_words st -> st <> xo_zero -> v < 2^32 ->
  how_many (fun i => snd (sm_next (sm_advance st i)) =? v) (2^128 - 1) = if v =? 0 then 2^96 - 1 else 2^96.
Proof. exact sm_frequency. Qed.
Print Assumptions C75_splitmix_xoroshiro_values.
(** TinyMT returns 33 bits under numba (C20): the lowest 32 count. *)
Theorem C75_tinymt_values : forall m s v, tiny_words s -> tiny127 s <> (0, 0, 0, 0) -> v < 2^32 ->
  how_many (fun i => snd (tiny_next m (tiny_advance m (tiny_arr s) i)) mod 2^32 =? v) (2^127 - 1)
  = if v =? 0 then 2^95 - 1 else 2^95.
Proof. exact tiny_frequency. Qed.
Print Assumptions C75_tinymt_values.
(** The percentages 0 to 99 of the games: by modulo the first 36 come up 656 and the others
    655 times in 65536; by reciprocal division the last one comes up 592 times only. *)
Example C75_case :
  map (with_remainder (2^16) 100) [0; 35; 36; 99] = [656; 656; 655; 655] /\
  map (with_quotient (2^16) (65535 / 100 + 1)) [0; 98; 99] = [656; 656; 592] /\
  map (with_share (2^32) 100) [0; 1; 99] = [42949673; 42949673; 42949672] /\
  how_many (fun h => h / 100 =? 3) 1000 = 100.
Proof. repeat split; now vm_compute. Qed.

(** C76. next_rand of SplitMixXoroshiro128Plus is next() modulo the maximum, which is not
    limited to 16 or 32 bits, and moves the state by one step. *)
Theorem C76_splitmix_next_rand : forall m st maximum, 1 <= maximum ->
  sm_next_rand m st maximum = (fst (sm_next st), Ok (snd (sm_next st) mod maximum)) /\
  snd (sm_next st) mod maximum < maximum.
Proof. exact sm_next_rand_range. Qed.
Print Assumptions C76_splitmix_next_rand.
Theorem C76_splitmix_next_rand_values : forall m st max v, xo_words st -> st <> xo_zero -> 1 <= max -> v < max ->
  how_many (fun i => res_eqb (snd (sm_next_rand m (sm_advance st i) max)) v) (2^128 - 1)
  = 2^96 * with_remainder (2^32) max v - (if v =? 0 then 1 else 0).
Proof. exact sm_rand_frequency. Qed.
Print Assumptions C76_splitmix_next_rand_values.
Theorem C76_xorshift_next_rand_values : forall m st max v, xs_words st -> st <> xs_zero -> 1 <= max < 2^32 -> v < max ->
  how_many (fun i => res_eqb (snd (xs_next_rand m (xs_advance m st i) max)) v) (2^128 - 1)
  = 2^96 * with_remainder (2^32) max v - (if v =? 0 then 1 else 0).
Proof. exact xs_rand_frequency. Qed.
Print Assumptions C76_xorshift_next_rand_values.
(** A maximum above 2^16, and one above 2^32 that leaves the output as it is. *)
Example C76_case :
  map (fun mx => snd (sm_next_rand NumPy (sm_new [0; 0] 1) mx)) [100; 100000; 2^40]
  = [Ok (snd (sm_next (sm_new [0; 0] 1)) mod 100); Ok (snd (sm_next (sm_new [0; 0] 1)) mod 100000);
     Ok (snd (sm_next (sm_new [0; 0] 1)))] /\ xo_words (sm_new [0; 0] 1) /\ sm_new [0; 0] 1 <> xo_zero.
Proof.
  split; [now vm_compute|]. split; [|now vm_compute].
  exists (aget (sm_new [0; 0] 1) 0), (aget (sm_new [0; 0] 1) 1). split; [now vm_compute|]. split; now vm_compute.
Qed.
