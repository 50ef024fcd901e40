(** C41, continued: which stats and natures come out right. *)
From Coq Require Import NArith List Bool Lia.
From Verif Require Import Base.Word Model.Gen3State Spec.Gen3WildSpec Proofs.Gen3Props Properties.P_Gen3.
Import ListNotations.
Open Scope N_scope.

(** HP, attack and defense are right for every nature. Missing from the claim: the other three. *)
Theorem C41_first_three_partial : forall m junk advance pid species form ivs ability level shiny info st,
  length junk = 6%nat -> pid < 2^32 -> level < 256 -> Forall (fun v => v < 32) ivs -> info_ok info ->
  gstate_new m junk advance pid species form ivs ability level shiny info = Ok st ->
  firstn 3 (g_stats st) = firstn 3 (true_stats pid level ivs info).
Proof.
  intros m junk advance pid species form ivs ability level shiny info st H1 H2 H3 H4 H5 E.
  rewrite (C41_natures_actual m junk advance pid species form ivs ability level shiny info st H1 H2 H3 H4 H5 E).
  reflexivity.
Qed.
Print Assumptions C41_first_three_partial.

(** Whether a Pokemon of nature n, level 50 and full IVs has wrong stats. *)
Definition wrong (n : N) : bool :=
  match gstate_new Numba junk 0 n 1 0 [31; 31; 31; 31; 31; 31] 0 50 0 (ex_info 127 0 0) with
  | Ok st => if list_eq_dec N.eq_dec (g_stats st) (true_stats n 50 [31; 31; 31; 31; 31; 31] (ex_info 127 0 0))
             then false else true
  | Raise _ => false
  end.

(** The natures of C41_natures_partial are all that come out right: for each of the other 18, a
    Pokemon of level 50 with full IVs has wrong stats. *)
Theorem C41_other_natures_refuted : forall n, n < 25 -> ~ In n [0; 1; 5; 6; 12; 18; 24] ->
  exists st, gstate_new Numba junk 0 n 1 0 [31; 31; 31; 31; 31; 31] 0 50 0 (ex_info 127 0 0) = Ok st /\
    g_stats st <> true_stats n 50 [31; 31; 31; 31; 31; 31] (ex_info 127 0 0).
Proof.
  intros n Hn Hin.
  assert (Hc : forallb (fun k => existsb (N.eqb k) [0; 1; 5; 6; 12; 18; 24] || wrong k)
                 (map N.of_nat (seq 0 25)) = true) by (vm_compute; reflexivity).
  rewrite forallb_forall in Hc. specialize (Hc n). rewrite in_map_iff in Hc.
  assert (Hk : exists x, N.of_nat x = n /\ In x (seq 0 25)).
  { exists (N.to_nat n). rewrite N2Nat.id, in_seq. split; [reflexivity|lia]. }
  specialize (Hc Hk). apply orb_true_iff in Hc. destruct Hc as [Hc|Hc].
  - exfalso. apply Hin. apply existsb_exists in Hc. destruct Hc as [x [Hx Ex]]. apply N.eqb_eq in Ex. now subst x.
  - unfold wrong in Hc.
    destruct (gstate_new Numba junk 0 n 1 0 [31; 31; 31; 31; 31; 31] 0 50 0 (ex_info 127 0 0)) as [st|e]; [|discriminate Hc].
    exists st. split; [reflexivity|]. destruct (list_eq_dec _ _ _) as [E|E]; [discriminate Hc|exact E].
Qed.
Print Assumptions C41_other_natures_refuted.

(** A Timid Pokemon: the first three stats are right, the last three are not. *)
Example C41_first_three_case :
  info_ok (ex_info 127 0 0) /\
  rmap (fun st => firstn 3 (g_stats st)) (gstate_new Numba junk 0 10 1 0 [31; 31; 31; 31; 31; 31] 0 50 0 (ex_info 127 0 0))
    = Ok [140; 83; 75] /\
  true_stats 10 50 [31; 31; 31; 31; 31; 31] (ex_info 127 0 0) = [140; 83; 75; 67; 95; 115].
Proof. split; [repeat split|]; now vm_compute. Qed.
