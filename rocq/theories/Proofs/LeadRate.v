(** How many seeds give an encounter that a lead had an effect on. *)
From Coq Require Import NArith ZArith List Bool Arith Lia.
From Verif Require Import Base.Word Base.WordLemmas Model.Gen3State Model.Gen3Area Model.Gen3Wild
  Spec.LcrngSpec Spec.Gen3Spec Spec.Gen3WildSpec Spec.CountSpec Spec.SlotShareSpec Spec.WildRateSpec Spec.LeadRateSpec
  Proofs.Count Proofs.Frequency Proofs.Gen3AreaProofs Proofs.Gen3Draws Proofs.Gen3Generate Proofs.Gen3Final Proofs.Gen3Props
  Proofs.SlotShares Proofs.WildRate.
Import ListNotations.
Open Scope list_scope.
Open Scope N_scope.
Ltac Zify.zify_post_hook ::= idtac.

Lemma more_often p q n : (forall i, i < n -> p i = true -> q i = true) -> how_many p n <= how_many q n.
Proof.
  induction n as [|n IH] using N.peano_ind; intros H; [reflexivity|]. rewrite !how_many_succ.
  specialize (IH ltac:(intros i Hi; apply H; lia)). specialize (H n ltac:(lia)).
  destruct (p n), (q n); lia.
Qed.

Section One.
Variables (fuel : nat) (junk : list N) (g : wildgen) (area : area3) (initial delay : N).
Hypothesis Hj : length junk = 6%nat.
Hypothesis He : search_ends g area.
Hypothesis Hf : 2^31 <= N.of_nat fuel.
Hypothesis Hd : initial + delay < 2^32.
Hypothesis Hc : needs_check g = false.

Lemma one_draw s : s < 2^32 ->
  let x := rand_at (after (initial + delay) s) in
  exists mods st d,
    get_modified_slots area (w_encounter g) (w_lead g) (w_game g) (w_table g) = Ok mods /\
    wild_generate fuel junk g s delay initial 1 area = Ok [st] /\
    (exists p1 p2, slot_choice x g area mods 0 = (Some (d_slot d), p1) /\ level_choice x g (d_slot d) p1 = (d_level d, p2)) /\
    In (d_slot d) (slots_of area (w_encounter g)) /\
    g_species st = species_of (d_slot d) /\ g_form st = form_of (d_slot d) /\ g_level st = d_level d.
Proof.
  intros Hs. cbv zeta. pose proof (one_advance fuel junk g area initial delay Hj He Hf Hd s Hs) as O. cbv zeta in O.
  rewrite (proj1 (no_check g area _ Hc)) in O. destruct O as (_ & st & _ & E & _ & _).
  assert (Hm : initial + 1 <= 2^32) by (clear - Hd; apply N.le_succ_l in Hd; rewrite N.add_1_r; etransitivity; [|exact Hd]; apply -> N.succ_le_mono; apply N.le_add_r).
  destruct (generate_states _ _ _ _ _ _ _ _ _ Hj (proj1 He) Hs Hd Hm E 0 st eq_refl) as (mods & d & M & D & S & I & _).
  rewrite !N.add_0_r in D, S. exists mods, st, d. split; [exact M|]. split; [exact E|].
  destruct D as (_ & p1 & p2 & p3 & p4 & Sl & Le & _). rewrite (proj2 (no_check g area (fun _ => 0) Hc)) in Sl.
  destruct S as (_ & _ & S1 & S2 & S3 & _).
  split; [exists p1, p2; auto|]. auto.
Qed.

Lemma half : 2^31 = 2^16 * with_remainder (2^16) 2 0.
Proof. reflexivity. Qed.

(** Magnet Pull and Static: a rand picks one of the listed slots. *)
Lemma attract_rate t mods :
  get_modified_slots area (w_encounter g) (w_lead g) (w_game g) (w_table g) = Ok mods ->
  w_lead g = Lead_MAGNET_PULL \/ w_lead g = Lead_STATIC ->
  mods = filter (has_type (w_table g) t) (slots_of area (w_encounter g)) -> mods <> [] ->
  2^31 <= how_many (fun s => one_found (state_has_type (w_table g) t) (wild_generate fuel junk g s delay initial 1 area)) (2^32).
Proof.
  intros M L F NE. rewrite half, <- remainder_count by lia.
  rewrite <- (any_rand_count (initial + delay) 1 (fun h => h mod 2 =? 0)).
  apply more_often. intros s Hs Ev. destruct (one_draw s Hs) as (mods' & st & d & M' & -> & (p1 & p2 & Sl & _) & I & Sp & _).
  rewrite M in M'. injection M' as <-. cbn [one_found]. unfold state_has_type. rewrite Sp.
  assert (In (d_slot d) mods) as K.
  { unfold slot_choice in Sl.
    replace ((w_lead g =? Lead_MAGNET_PULL) || (w_lead g =? Lead_STATIC)) with true in Sl by (destruct L as [-> | ->]; reflexivity).
    change (0 + 1) with 1 in Sl. rewrite Ev in Sl. replace (negb (length mods =? 0)%nat) with true in Sl.
    - cbn [andb] in Sl. injection Sl as Sl _. exact (nth_error_In _ _ Sl).
    - destruct mods; [now elim NE|reflexivity]. }
  rewrite F in K. apply filter_In in K. exact (proj2 K).
Qed.
(** Pressure: a rand decides on the highest level. *)
Lemma pressure_rate : w_lead g = Lead_PRESSURE ->
  2^31 <= how_many (fun s => one_found (at_highest_level (slots_of area (w_encounter g))) (wild_generate fuel junk g s delay initial 1 area)) (2^32).
Proof.
  intros L. rewrite half, <- remainder_count by lia.
  rewrite <- (any_rand_count (initial + delay) 3 (fun h => h mod 2 =? 0)).
  apply more_often. intros s Hs Ev. destruct (one_draw s Hs) as (mods' & st & d & _ & -> & (p1 & p2 & Sl & Le) & I & Sp & Fo & Lv).
  cbn [one_found]. unfold at_highest_level. apply existsb_exists. exists (d_slot d). split; [exact I|].
  rewrite Sp, Fo, Lv, !N.eqb_refl. cbn [andb].
  unfold slot_choice in Sl. rewrite L in Sl. change ((Lead_PRESSURE =? Lead_MAGNET_PULL) || (Lead_PRESSURE =? Lead_STATIC)) with false in Sl.
  cbv iota in Sl. injection Sl as _ Sl. change (0 + 1) with 1 in Sl. subst p1.
  unfold level_choice in Le. rewrite L, N.eqb_refl in Le. change (1 + 2) with 3 in Le. rewrite Ev in Le.
  injection Le as <- _. apply N.eqb_refl.
Qed.
End One.

Lemma filter_not_nil {A} (p : A -> bool) l : Exists (fun a => p a = true) l -> filter p l <> [].
Proof.
  intros H. apply Exists_exists in H. destruct H as (a & I & P). intros E.
  assert (In a (filter p l)) as K by (apply filter_In; auto). rewrite E in K. exact K.
Qed.
