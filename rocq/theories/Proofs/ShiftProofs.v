(** Runs that start at the same place of the sequence. *)
From Coq Require Import NArith List Bool Lia.
From Verif Require Import Base.Word Base.WordLemmas Model.Lcrng32 Model.LcrngClasses
  Model.Gen3State Model.Gen3Area Model.Gen3Wild
  Spec.LcrngSpec Spec.ClassSpec Spec.Gen3WildSpec Spec.ShiftSpec Proofs.Lcrng32Proofs Proofs.LcrngFinal Proofs.ClassProofs Proofs.OneSeed
  Proofs.Gen3AreaProofs Proofs.Gen3Generate.
Import ListNotations.
Open Scope list_scope.
Open Scope N_scope.
Ltac Zify.zify_post_hook ::= idtac.

Lemma later_at k a st : later k (at_advance a st) = at_advance (a + k) st.
Proof. reflexivity. Qed.

Lemma loop_shift fuel junk g area mods rate safari rse n : forall k a rng c,
  k + a + N.of_nat n <= 4294967296 ->
  wild_loop fuel junk g area mods rate safari rse n (k + a) rng c =
  rmap (map (later k)) (wild_loop fuel junk g area mods rate safari rse n a rng c).
Proof.
  induction n as [|n IH]; intros k a rng c H; [reflexivity|]. cbn [wild_loop].
  rewrite (step_advance _ _ _ _ _ _ _ _ _ _ (k + a)), (step_advance _ _ _ _ _ _ _ _ _ _ a).
  assert (Hn : k + a + 1 + N.of_nat n <= 4294967296) by (rewrite Nat2N.inj_succ in H; lia).
  assert (W1 : w32 (k + a) = k + a) by (apply w32_small; change (k + a < 4294967296); lia).
  assert (W2 : w32 a = a) by (apply w32_small; change (a < 4294967296); lia).
  unfold set_adv. rewrite W1, W2.
  destruct (wild_step fuel junk g area mods rate safari rse c rng 0) as [[c' [st|]]|e]; cbn [rmap rbind fst snd option_map]; [| |reflexivity].
  - replace (k + a + 1) with (k + (a + 1)) by lia. rewrite IH by lia.
    destruct (wild_loop fuel junk g area mods rate safari rse n (a + 1) (poke_next rng) c') as [l|e]; cbn [rmap map]; [|reflexivity].
    now rewrite later_at, (N.add_comm a k).
  - replace (k + a + 1) with (k + (a + 1)) by lia. apply IH. lia.
Qed.

(** Two runs whose first advances are at the same place of the sequence. *)
Lemma generate_shift fuel junk g seed seed' delay delay' k i max area :
  seed < 2^32 -> seed' < 2^32 -> k + i + delay < 2^32 -> i + delay' < 2^32 -> k + i + max <= 2^32 ->
  lcg_steps 32 0x41C64E6D 0x6073 (k + i + delay) seed = lcg_steps 32 0x41C64E6D 0x6073 (i + delay') seed' ->
  wild_generate fuel junk g seed delay (k + i) max area =
  rmap (map (later k)) (wild_generate fuel junk g seed' delay' i max area).
Proof.
  intros Hs Hs' H H' Hm E. rewrite !generate_form; [|exact Hs'|exact H'|exact Hs|exact H].
  destruct (get_modified_slots _ _ _ _ _) as [mods|e]; [|reflexivity]. cbn [rbind].
  unfold steps. rewrite E. apply loop_shift. rewrite N2Nat.id. exact Hm.
Qed.

(** Going back with a reverse class. *)
Lemma back_steps minor q : In q [PokeRNGRMod; PokeRNGRDiv] ->
  exists a m, consts_of32 minor q = Ok (a, m) /\
  forall s n, s < 2^32 -> n < 2^32 ->
    exists t, lcrng32_jump a m s n = (t, Ok t) /\ t < 2^32 /\ lcg_steps 32 0x41C64E6D 0x6073 n t = s.
Proof.
  intros Hq.
  assert (Hp : exists p, In (p, q) pairs32 /\ In (p, (0x41C64E6D, 0x6073)) games32).
  { destruct Hq as [<-|[<-|[]]]; [exists PokeRNGMod|exists PokeRNGDiv]; cbn; auto 10. }
  destruct Hp as (p & Hpq & Hg). destruct (class_reverse32 minor p q Hpq) as (a & m & a' & m' & E & E' & R).
  rewrite (class_consts32 minor p _ _ Hg) in E. injection E as <- <-.
  exists a', m'. split; [exact E'|]. intros s n Hs Hn.
  exists (N.iter n (lcrng32_next a' m') s).
  rewrite lcrng32_jump_ok by exact Hs. cbv zeta.
  rewrite N.mod_small by exact Hn. replace (n <? _) with true by (symmetry; apply N.ltb_lt; exact Hn).
  split; [reflexivity|]. split; [apply iter_lt; [intros y; apply next32_lt|exact Hs]|].
  destruct (R s n Hs Hn) as [_ R2]. unfold lcrng32_advance in R2.
  assert (Hw : w32 n = n) by now apply w32_small. rewrite Hw in R2.
  rewrite steps_poke. exact R2.
Qed.
