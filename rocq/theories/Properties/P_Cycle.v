(** Property C86: the outputs of the block twisters run in a cycle without a tail, and
    never die out. *)
From Coq Require Import NArith List.
From Verif Require Import Base.Word Model.MT Model.SFMT Spec.MTHistory Spec.SFMTHistory Spec.CycleSpec Proofs.TwisterCycle.
Import ListNotations.
Open Scope N_scope.

(** For every seed there is a period, and it starts with the first output. *)
Theorem C86_mt_cycle : forall seed, exists period, (0 < period)%nat /\
  forall m junk k, length junk = 624%nat ->
  mt_output_no m (mt_new junk seed) (k + period) = mt_output_no m (mt_new junk seed) k.
Proof. exact mt_outputs_cycle. Qed.
Print Assumptions C86_mt_cycle.
Theorem C86_sfmt_cycle : forall seed, exists period, (0 < period)%nat /\
  forall m junk k, length junk = 624%nat ->
  sfmt_output_no m (sfmt_new junk seed) (k + period) = sfmt_output_no m (sfmt_new junk seed) k.
Proof. exact sfmt_outputs_cycle. Qed.
Print Assumptions C86_sfmt_cycle.
(** From no seed, and at no point, are there 624 outputs 0 in a row (313 of the SIMD
    twister, whose outputs have 64 bits). *)
Theorem C86_mt_never_zero : forall m junk seed k, length junk = 624%nat ->
  exists i, (i < 624)%nat /\ mt_output_no m (mt_new junk seed) (k + i) <> OVal 0.
Proof. exact mt_outputs_alive. Qed.
Print Assumptions C86_mt_never_zero.
Theorem C86_sfmt_never_zero : forall m junk seed k, length junk = 624%nat ->
  exists i, (i < 313)%nat /\ sfmt_output_no m (sfmt_new junk seed) (k + i) <> OVal 0.
Proof. exact sfmt_outputs_alive. Qed.
Print Assumptions C86_sfmt_never_zero.
(** A state of zeros, which no seed leads to, would stay. *)
Example C86_case :
  mt_output_no NumPy (mt_new (repeat 7 624) 5489) 0 = OVal 3499211612 /\
  mt_outputs_of NumPy (mkMT (repeat 0 624) 0) 3 = [OVal 0; OVal 0; OVal 0] /\
  sfmt_outputs_of NumPy (mkSFMT (repeat 0 624) 0) 3 = [OVal 0; OVal 0; OVal 0].
Proof. now vm_compute. Qed.
