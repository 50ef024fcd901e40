(** What the advances of one seed give is what the seeds give. *)
From Coq Require Import NArith List Bool Lia.
From Verif Require Import Base.Word Base.WordLemmas Model.Lcrng32 Model.Lcrng64 Model.LcrngClasses
  Model.Gen3State Model.Gen3Area Model.Gen3Wild
  Spec.LcrngSpec Spec.Gen3WildSpec Spec.CountSpec Proofs.Count Proofs.Lcrng32Proofs Proofs.Lcrng64Proofs Proofs.LcrngFinal Proofs.Gen3AreaProofs Proofs.Gen3Generate.
Import ListNotations.
Open Scope list_scope.
Open Scope N_scope.
Ltac Zify.zify_post_hook ::= idtac.

(** A function that takes every value below n once keeps counts. *)
Lemma how_many_onto p (out : N -> N) n : (forall i, i < n -> out i < n) ->
  (forall v, v < n -> exists i, i < n /\ out i = v /\ forall j, j < n -> out j = v -> j = i) ->
  how_many (fun i => p (out i)) n = how_many p n.
Proof.
  intros B U. rewrite (how_many_by_value p out n n B).
  rewrite (total_ext _ (fun v => if p v then 1 else 0)).
  - rewrite total_if. apply N.mul_1_l.
  - intros v Hv. destruct (p v); [|reflexivity]. destruct (U v Hv) as (i & Hi & E & Ui).
    rewrite (how_many_ext _ (fun j => j =? i)); [now apply how_many_one|].
    intros j Hj. destruct (N.eqb_spec j i) as [->|F]; [now apply N.eqb_eq|].
    apply N.eqb_neq. intros G. apply F, Ui; assumption.
Qed.

Lemma iter_lt (f : N -> N) n i x : (forall y, f y < n) -> x < n -> N.iter i f x < n.
Proof. intros F H. destruct i as [|i] using N.peano_ind; [exact H|]. rewrite N.iter_succ. apply F. Qed.

Lemma full_period_counts w f p seed : full_period w f -> (forall x, f x < 2^w) -> seed < 2^w ->
  how_many (fun i => p (N.iter i f seed)) (2^w) = how_many p (2^w).
Proof.
  intros [_ U] B H. apply (how_many_onto p (fun i => N.iter i f seed)).
  - intros i _. apply iter_lt; assumption.
  - intros v Hv. exact (U seed v H Hv).
Qed.

Definition poke := lcrng32_next 0x6073 0x41C64E6D.
Lemma poke_period : full_period 32 poke.
Proof. apply lcrng32_full_period; [now exists (0x41C64E6D / 4)|now exists (0x6073 / 2)]. Qed.
Lemma steps_poke k s : lcg_steps 32 0x41C64E6D 0x6073 k s = N.iter k poke s.
Proof.
  unfold lcg_steps. induction k as [|k IH] using N.peano_ind; [reflexivity|].
  rewrite !N.iter_succ, IH. symmetry. apply lcrng32_next_spec.
Qed.

Lemma map_rmap_rmap {A B C} (f : A -> B) (h : B -> C) x : rmap h (rmap f x) = rmap (fun a => h (f a)) x.
Proof. now destruct x. Qed.

(** Generating one advance is generating the first advance of the seed that is there. *)
Lemma generate_one fuel junk g seed delay i area : seed < 2^32 -> i + delay < 2^32 ->
  wild_generate fuel junk g seed delay i 1 area =
  rmap (map (at_advance i)) (wild_generate fuel junk g (N.iter (i + delay) poke seed) 0 0 1 area).
Proof.
  intros Hs Hi.
  assert (Ht : N.iter (i + delay) poke seed < 2^32) by (apply iter_lt; [intros y; apply next32_lt|exact Hs]).
  rewrite !generate_form; [|exact Ht|reflexivity|exact Hs|exact Hi].
  destruct (get_modified_slots _ _ _ _ _) as [mods|e]; [|reflexivity]. cbn [rbind].
  change (N.to_nat 1) with 1%nat. cbn [wild_loop].
  unfold steps. rewrite !steps_poke. change (N.iter (0 + 0) poke (N.iter (i + delay) poke seed)) with (N.iter (i + delay) poke seed).
  rewrite (step_advance _ _ _ _ _ _ _ _ _ _ i).
  assert (Hw : w32 i = i) by (apply w32_small; clear - Hi; change (2^32) with 4294967296 in Hi; change (i < 4294967296); lia).
  unfold set_adv. rewrite Hw.
  destruct (wild_step _ _ _ _ _ _ _ _ _ _ 0) as [[c [st|]]|e]; reflexivity.
Qed.

Lemma one_seed_reaches fuel junk g seed seed' area : seed < 2^32 -> seed' < 2^32 ->
  exists i, i < 2^32 /\ wild_generate fuel junk g seed 0 i 1 area =
    rmap (map (at_advance i)) (wild_generate fuel junk g seed' 0 0 1 area).
Proof.
  intros Hs Ht. destruct poke_period as [_ U]. destruct (U seed seed' Hs Ht) as (i & Hi & E & _).
  exists i. split; [exact Hi|]. rewrite generate_one by (rewrite ?N.add_0_r; assumption).
  now rewrite N.add_0_r, E.
Qed.

Lemma one_seed_counts fuel junk g seed area (kind : res (list gstate) -> bool) : seed < 2^32 ->
  (forall i x, kind (rmap (map (at_advance i)) x) = kind x) ->
  how_many (fun i => kind (wild_generate fuel junk g seed 0 i 1 area)) (2^32) =
  how_many (fun s => kind (wild_generate fuel junk g s 0 0 1 area)) (2^32).
Proof.
  intros Hs K.
  rewrite <- (full_period_counts 32 poke (fun s => kind (wild_generate fuel junk g s 0 0 1 area)) seed poke_period);
    [|intros x; apply next32_lt|exact Hs].
  apply how_many_ext. intros i Hi. rewrite generate_one by (rewrite ?N.add_0_r; assumption).
  rewrite N.add_0_r. apply K.
Qed.

Lemma any_function_32 minor p : In p published32 ->
  exists a m, consts_of32 minor p = Ok (a, m) /\
  forall (kind : N -> bool) seed, seed < 2^32 ->
    how_many (fun i => kind (lcrng32_advance a m seed i)) (2^32) = how_many kind (2^32).
Proof.
  intros Hp. destruct (c05_32 minor p Hp) as (a & m & E & H). exists a, m. split; [exact E|].
  intros kind seed Hs.
  rewrite <- (full_period_counts 32 (lcrng32_next a m) kind seed H); [|intros x; apply next32_lt|exact Hs].
  apply how_many_ext. intros i Hi. unfold lcrng32_advance. now rewrite w32_small.
Qed.
Lemma any_function_64 minor p : In p published64 ->
  exists a m, consts_of64 minor p = Ok (a, m) /\
  forall (kind : N -> bool) seed, seed < 2^64 ->
    how_many (fun i => kind (lcrng64_advance a m seed i)) (2^64) = how_many kind (2^64).
Proof.
  intros Hp. destruct (c05_64 minor p Hp) as (a & m & E & H). exists a, m. split; [exact E|].
  intros kind seed Hs.
  rewrite <- (full_period_counts 64 (lcrng64_next a m) kind seed H); [|intros x; apply Lcrng64Proofs.next64_lt|exact Hs].
  apply how_many_ext. intros i Hi. unfold lcrng64_advance. now rewrite w64_small.
Qed.
