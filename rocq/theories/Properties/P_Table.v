(** C44, tables that count down. *)
From Coq Require Import NArith ZArith List Bool.
From Verif Require Import Base.Word Model.Gen3Area Spec.TableSpec Proofs.TableProofs.
Import ListNotations.
Open Scope N_scope.

(** C44. With greater=True the rolls are dealt out from 99 downwards, and again every slot but
    the last ends one roll early. *)
Theorem C44_greater_table_actual : forall junk ranges,
  length junk = 100%nat -> decreasing_to_minus_1 99 ranges ->
  exists t, compute_table junk ranges true = Ok t /\ length t = 100%nat /\
    forall r, r < 100 ->
      nth (N.to_nat r) t 0 =
        slot_of_roll_down ranges (Z.of_N r) +
        (if existsb (Z.eqb (Z.of_N r - 1)) ranges && (0 <? r) then 1 else 0).
Proof. exact greater_table. Qed.
Print Assumptions C44_greater_table_actual.

Example C44_greater_case : decreasing_to_minus_1 99 [79; 59; 49; -1]%Z /\
  rmap (map N.to_nat) (rmap (fun t => [nth 81 t 0; nth 80 t 0; nth 79 t 0; nth 0 t 0]) (compute_table (repeat 9 100) [79; 59; 49; -1]%Z true))
    = Ok [0; 1; 1; 3]%nat.
Proof. split; [now cbn|now vm_compute]. Qed.
