From Coq Require Import NArith ZArith List Lia.
From Verif Require Import Base.Word Base.WordLemmas Model.Gen3State Model.Gen3Update.
From Verif Require Import Spec.UpdateSpec Proofs.MemoryProofs.
Import ListNotations.
Open Scope N_scope.
Ltac Zify.zify_post_hook ::= idtac.

Lemma init_update m junk rest advance pid species form ivs ability level shiny info :
  gstate_new m junk advance pid species form ivs ability level shiny info =
  update_stats m (gstate_init junk rest advance pid species form ivs ability level shiny info) info.
Proof. reflexivity. Qed.

(** the constructor on the attributes of a state *)
Definition rebuilt (m : mode) (junk : list N) (st : gstate) (info : personal3) : res gstate :=
  gstate_new m junk (g_advance st) (g_pid st) (g_species st) (g_form st) (g_ivs st) (g_ability st) (g_level st) (g_shiny st) info.

Definition keep_ability (i : N) (st : gstate) : gstate :=
  {| g_advance := g_advance st; g_pid := g_pid st; g_species := g_species st; g_form := g_form st;
     g_stats := g_stats st; g_ability_index := i; g_ivs := g_ivs st; g_ability := g_ability st;
     g_characteristic := g_characteristic st; g_gender := g_gender st; g_hidden_power := g_hidden_power st;
     g_hidden_power_strength := g_hidden_power_strength st; g_level := g_level st; g_nature := g_nature st;
     g_shiny := g_shiny st |}.

Lemma update_rebuilt m st info : fields_fit st ->
  update_stats m st info = rmap (keep_ability (g_ability_index st)) (rebuilt m (g_stats st) st info).
Proof.
  intros (A & P & Sp & Fo & Ab & Le & Sh & L). unfold rebuilt, gstate_new, update_stats. cbv zeta.
  change (2^32) with 4294967296 in A, P. change (2^16) with 65536 in Sp. change (2^8) with 256 in Fo, Ab, Le, Sh.
  assert (E1 : w32 (g_advance st) = g_advance st) by (apply N.mod_small; exact A).
  assert (E2 : w32 (g_pid st) = g_pid st) by (apply N.mod_small; exact P).
  assert (E3 : w16 (g_species st) = g_species st) by (apply N.mod_small; exact Sp).
  assert (E4 : w8 (g_form st) = g_form st) by (apply N.mod_small; exact Fo).
  assert (E5 : w8 (g_ability st) = g_ability st) by (apply N.mod_small; exact Ab).
  assert (E6 : w8 (g_level st) = g_level st) by (apply N.mod_small; exact Le).
  assert (E7 : w8 (g_shiny st) = g_shiny st) by (apply N.mod_small; exact Sh).
  rewrite E1, E2, E3, E4, E5, E6, E7.
  destruct (for_range_r 6 0 _ _) as [u|e]; reflexivity.
Qed.

Lemma update_same m junk st info st' fresh : fields_fit st -> length junk = 6%nat ->
  update_stats m st info = Ok st' ->
  gstate_new m junk (g_advance st) (g_pid st) (g_species st) (g_form st) (g_ivs st) (g_ability st) (g_level st) (g_shiny st) info = Ok fresh ->
  same_derived st' fresh /\ same_inputs st' st.
Proof.
  intros F L U G. pose proof F as (_ & _ & _ & _ & _ & _ & _ & L').
  split.
  - rewrite (gstate_memory m junk (g_stats st)) in G by assumption.
    pose proof (update_rebuilt m st info F) as E. unfold rebuilt in E. rewrite G, U in E. cbn [rmap] in E.
    inversion E. repeat split; reflexivity.
  - revert U. unfold update_stats. cbv zeta. clear. intros U.
    destruct (for_range_r 6 0 _ _) as [u|e]; [|discriminate]. cbn [rbind] in U. inversion U. repeat split; reflexivity.
Qed.
Lemma update_raises m junk st info e : fields_fit st -> length junk = 6%nat ->
  (update_stats m st info = Raise e <->
   gstate_new m junk (g_advance st) (g_pid st) (g_species st) (g_form st) (g_ivs st) (g_ability st) (g_level st) (g_shiny st) info = Raise e).
Proof.
  intros F L. pose proof F as (_ & _ & _ & _ & _ & _ & _ & L').
  rewrite (gstate_memory m junk (g_stats st)) by assumption.
  rewrite (update_rebuilt m st info F). unfold rebuilt. destruct (gstate_new _ _ _ _ _ _ _ _ _ _ _) as [x|x]; cbn [rmap]; split; congruence.
Qed.

Lemma update_forgets m a b info : fields_fit a -> fields_fit b -> same_inputs a b ->
  update_stats m a info = update_stats m b info.
Proof.
  intros Fa Fb (E1 & E2 & E3 & E4 & E5 & E6 & E7 & E8 & E9).
  rewrite (update_rebuilt m a info Fa), (update_rebuilt m b info Fb). unfold rebuilt.
  rewrite E1, E2, E3, E4, E5, E6, E7, E8, E9.
  destruct Fa as (_ & _ & _ & _ & _ & _ & _ & La). destruct Fb as (_ & _ & _ & _ & _ & _ & _ & Lb).
  now rewrite (gstate_memory m (g_stats a) (g_stats b)).
Qed.

Lemma loop_length ivs base level nature ec : forall n k u v,
  for_range_r n k (update_body ivs base level nature ec) u = Ok v -> length (u_stats v) = length (u_stats u).
Proof.
  induction n as [|n IH]; intros k u v H; cbn [for_range_r] in H; [now inversion H|].
  destruct (update_body ivs base level nature ec k u) as [w|e] eqn:E; cbn [rbind] in H; [|discriminate].
  rewrite (IH _ _ _ H). clear H IH. unfold update_body in E. cbv zeta in E.
  assert (G : forall x l, asetr (u_stats u) k x = Ok l -> length l = length (u_stats u)).
  { intros x l. unfold asetr. destruct (Nat.ltb _ _); [|discriminate]. intros Q. inversion Q. apply aset_length. }
  assert (Q : exists l, length l = length (u_stats u) /\ u_stats w = l).
  { revert E. match goal with |- rbind ?r _ = _ -> _ => destruct r as [l|e] eqn:R end; cbn [rbind]; [|discriminate].
    intros E. exists l. split.
    - destruct k as [|k]; [exact (G _ _ R)|]. destruct (compute_stat _ _ _) as [x|e]; cbn [rbind] in R; [exact (G _ _ R)|discriminate].
    - destruct (u_max_iv u <? _); inversion E; reflexivity. }
  destruct Q as (l & Q1 & Q2). now rewrite Q2.
Qed.

Lemma update_twice m st info st' : fields_fit st -> update_stats m st info = Ok st' -> update_stats m st' info = Ok st'.
Proof.
  intros F U. transitivity (update_stats m st info); [|exact U]. apply update_forgets; [|exact F|].
  - revert U. unfold update_stats. cbv zeta. intros U. destruct F as (A & P & Sp & Fo & Ab & Le & Sh & L).
    destruct (for_range_r 6 0 _ _) as [u|e] eqn:R; [|discriminate]. cbn [rbind] in U. inversion U.
    apply loop_length in R. cbn [u_stats] in R. unfold fields_fit. cbn [g_advance g_pid g_species g_form g_ability g_level g_shiny g_stats]. rewrite R. tauto.
  - revert U. unfold update_stats. cbv zeta. intros U. destruct (for_range_r 6 0 _ _) as [u|e]; [|discriminate].
    cbn [rbind] in U. inversion U. repeat split; reflexivity.
Qed.
