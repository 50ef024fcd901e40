(** Property C88: how many seeds are behind six IVs. *)
From Coq Require Import NArith List.
From Verif Require Import Base.Word Model.Gen3State Model.Gen3Area Model.Gen3Wild
  Spec.Gen3Spec Spec.Gen3WildSpec Spec.SpreadSpec Proofs.SpreadProofs Properties.P_Gen3.
Import ListNotations.
Open Scope N_scope.

(** C88. At most six seeds give the same six IVs, by any method and at any advance. *)
Theorem C88_at_most_six_seeds : forall gap j l ivs, gap = 1 \/ gap = 2 -> NoDup l ->
  (forall s, In s l -> s < 2^32 /\ spread gap j s = ivs) -> (length l <= 6)%nat.
Proof. exact six_seeds. Qed.
Print Assumptions C88_at_most_six_seeds.
(** The seeds come in pairs that differ by 2^31. *)
Theorem C88_seeds_in_pairs : forall gap j s, spread gap j (s + 2^31) = spread gap j s.
Proof. exact spread_top. Qed.
Print Assumptions C88_seeds_in_pairs.
(** By Methods 1 and 2 each of the 2^30 combinations of IVs comes up at every advance. *)
Theorem C88_every_spread_occurs : forall j ivs, ivs_ok ivs -> exists s, s < 2^31 /\ spread 1 j s = ivs.
Proof. exact every_spread. Qed.
Print Assumptions C88_every_spread_occurs.
(** By Method 4 some never do. *)
Theorem C88_method_4_leaves_some_out : ivs_ok [0; 0; 0; 0; 0; 26] /\ forall j s, spread 2 j s <> [0; 0; 0; 0; 0; 26].
Proof. split; [|exact no_such_spread]. split; [reflexivity|]. repeat constructor. Qed.
Print Assumptions C88_method_4_leaves_some_out.
(** The IVs of every state of a run are such a combination, at the run's own seed. *)
Theorem C88_states : forall fuel junk g seed delay initial max area l,
  length junk = 6%nat -> setting_ok g area ->
  seed < 2^32 -> initial + delay < 2^32 -> initial + max <= 2^32 ->
  wild_generate fuel junk g seed delay initial max area = Ok l ->
  forall i st, nth_error l (N.to_nat i) = Some st ->
  let gap := if w_method g =? Method_METHOD_4 then 2 else 1 in
  exists p, spread gap (initial + i + delay + p) seed = g_ivs st.
Proof. exact generated_spread. Qed.
Print Assumptions C88_states.
(** Six is reached: these are all seeds of Method 1 with every IV at 31, and six seeds of
    Method 2 and of Method 4 with equal IVs. *)
Example C88_case :
  Forall (fun s => spread 1 3 s = [31; 31; 31; 31; 31; 31])
    [0x469FB838; 0x5694C91C; 0x7B0448D1; 0xC69FB838; 0xD694C91C; 0xFB0448D1] /\
  Forall (fun s => spread 1 4 s = [8; 3; 9; 20; 21; 0])
    [0x9F5DC5; 0x11AA67D1; 0x4AA4E72E; 0x809F5DC5; 0x91AA67D1; 0xCAA4E72E] /\
  Forall (fun s => spread 2 3 s = [8; 3; 9; 19; 21; 24])
    [0x53F2FBF4; 0x5C63BCEF; 0x64D47DEA; 0xD3F2FBF4; 0xDC63BCEF; 0xE4D47DEA].
Proof. repeat split; now repeat constructor. Qed.
(** Advance 12 of the run in P_Gen3.v. *)
Example C88_states_case :
  rmap (map g_ivs) (wild_generate 2000 junk (ex_gen 3 Encounter_GRASS Game_EMERALD) 7 3 12 1 ex_area)
  = Ok [spread 1 (12 + 0 + 3 + 403) 7].
Proof. now vm_compute. Qed.
