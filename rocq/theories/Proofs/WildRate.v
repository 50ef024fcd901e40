(** How many seeds give an encounter of some kind. *)
From Coq Require Import NArith ZArith List Bool Arith Lia.
From Verif Require Import Base.Word Base.WordLemmas Model.Gen3State Model.Gen3Area Model.Gen3Wild
  Spec.LcrngSpec Spec.Gen3Spec Spec.Gen3WildSpec Spec.CountSpec Spec.SlotShareSpec Spec.WildRateSpec
  Proofs.Count Proofs.Frequency Proofs.Gen3AreaProofs Proofs.Gen3Draws Proofs.Gen3Generate Proofs.Gen3Final Proofs.Gen3Props Proofs.SlotShares.
Import ListNotations.
Open Scope list_scope.
Open Scope N_scope.
Ltac Zify.zify_post_hook ::= idtac.
Notation after k s := (lcg_steps 32 0x41C64E6D 0x6073 k s).

(** Stepping is injective, so that any one rand of a seed is uniform. *)
Lemma after_lt k s : s < 2^32 -> after k s < 2^32.
Proof.
  intros H. destruct k as [|k] using N.peano_ind; [exact H|].
  unfold lcg_steps. rewrite N.iter_succ. apply N.mod_lt. discriminate.
Qed.
Lemma after_inj k s t : s < 2^32 -> t < 2^32 -> after k s = after k t -> s = t.
Proof.
  induction k as [|k IH] using N.peano_ind; intros Hs Ht E; [exact E|].
  apply IH; [exact Hs|exact Ht|]. rewrite <- (step_back (after k s)), <- (step_back (after k t)) by (apply after_lt; assumption).
  unfold lcg_steps in E |- *. rewrite !N.iter_succ in E. rewrite E. reflexivity.
Qed.
Lemma after_add j k s : after j (after k s) = after (k + j) s.
Proof. unfold lcg_steps. now rewrite N.add_comm, N.iter_add. Qed.
Lemma any_rand_lt s k : s < 2^32 -> rand_at s k < 2^16.
Proof. intros H. apply (high_low 16 16). exact (after_lt k s H). Qed.
Lemma any_rand_often d k v : v < 2^16 -> how_many (fun s => rand_at (after d s) k =? v) (2^32) = 2^16.
Proof.
  assert (E : forall s, rand_at (after d s) k = after (d + k) s / 2^16) by (intros s; unfold rand_at; rewrite after_add; reflexivity).
  apply (equally_often (fun s => rand_at (after d s) k) (fun s => after (d + k) s mod 2^16)).
  - intros s Hs. apply any_rand_lt, after_lt, Hs.
  - intros s _. apply N.mod_lt. discriminate.
  - intros s t Hs Ht A B. rewrite !E in A. apply (after_inj (d + k) s t Hs Ht).
    rewrite (N.div_mod (after (d + k) s) (2^16)), A, B by discriminate. symmetry. apply N.div_mod. discriminate.
  - reflexivity.
Qed.
Lemma any_rand_count d k p : how_many (fun s => p (rand_at (after d s) k)) (2^32) = 2^16 * how_many p (2^16).
Proof.
  apply (function_of_value p (fun s => rand_at (after d s) k)).
  - intros s Hs. apply any_rand_lt, after_lt, Hs.
  - apply any_rand_often.
Qed.

(** One advance. *)
Section One.
Variables (fuel : nat) (junk : list N) (g : wildgen) (area : area3) (initial delay : N).
Hypothesis Hj : length junk = 6%nat.
Hypothesis He : search_ends g area.
Hypothesis Hf : 2^31 <= N.of_nat fuel.
Hypothesis Hd : initial + delay < 2^32.

Lemma one_advance s : s < 2^32 ->
  let x := rand_at (after (initial + delay) s) in
  if check_fails x g area then wild_generate fuel junk g s delay initial 1 area = Ok []
  else exists mods st d,
    wild_generate fuel junk g s delay initial 1 area = Ok [st] /\
    drawn x g area mods (is_rse_safari_zone area (w_game g)) d /\ state_of g initial d st.
Proof.
  intros Hs. cbv zeta. destruct He as (So & Un & L1 & L2).
  assert (Hm : initial + 1 <= 2^32) by (clear - Hd; apply N.le_succ_l in Hd; rewrite N.add_1_r; etransitivity; [|exact Hd]; apply -> N.succ_le_mono; apply N.le_add_r).
  destruct (generate_ends fuel junk g s delay initial 1 area Hj So Un L1 L2 Hf Hs Hd Hm) as (l & E).
  destruct (generate_sound _ _ _ _ _ _ _ _ _ Hj So Hs Hd Hm E) as (K1 & K2 & K3).
  destruct l as [|st [|? ?]].
  - specialize (K3 eq_refl). cbn [length N.of_nat] in K3. rewrite N.add_0_r in K3. unfold steps in K3. rewrite K3. exact E.
  - destruct (K2 0 eq_refl) as (st' & _ & F & _). rewrite N.add_0_r in F. unfold steps in F. rewrite F.
    destruct (generate_states _ _ _ _ _ _ _ _ _ Hj So Hs Hd Hm E 0 st eq_refl) as (mods & d & _ & D & S & _).
    rewrite !N.add_0_r in D, S. exists mods, st, d. auto.
  - exfalso. clear - K1. cbn [length] in K1. lia.
Qed.

Lemma no_check x : needs_check g = false -> check_fails x g area = false /\ after_check g = 0.
Proof. intros H. unfold check_fails, after_check. rewrite H. auto. Qed.

(** Rock smash. *)
Lemma count_lt t n : how_many (fun h => h <? t) n = N.min t n.
Proof.
  induction n as [|n IH] using N.peano_ind; [rewrite how_many_0; lia|].
  rewrite how_many_succ, IH. destruct (N.ltb_spec n t); lia.
Qed.
Lemma below_count t : how_many (fun h => h mod 2880 <? t) (2^16) = below_in_2880 t.
Proof.
  change (2^16) with (22 * 2880 + 2176).
  rewrite (how_many_mod (fun r => r <? t) 2880 22 2176) by lia. now rewrite !count_lt.
Qed.
Lemma rock_found : needs_check g = true ->
  how_many (fun s => one_found (fun _ => true) (wild_generate fuel junk g s delay initial 1 area)) (2^32) =
  2^16 * below_in_2880 (16 * a_rock_rate area).
Proof.
  intros C. rewrite <- below_count.
  rewrite <- (any_rand_count (initial + delay) 1 (fun h => h mod 2880 <? 16 * a_rock_rate area)).
  apply how_many_ext. intros s Hs. pose proof (one_advance s Hs) as O. cbv zeta in O.
  unfold check_fails in O. rewrite C in O. cbn [andb] in O. rewrite N.ltb_antisym.
  destruct (16 * a_rock_rate area <=? _).
  - rewrite O. reflexivity.
  - destruct O as (mods & st & d & -> & _). reflexivity.
Qed.
Lemma complement p q n : (forall i, i < n -> p i = negb (q i)) -> how_many p n + how_many q n = n.
Proof.
  induction n as [|n IH] using N.peano_ind; intros H; [reflexivity|].
  rewrite !how_many_succ, (H n) by lia. specialize (IH ltac:(intros; apply H; lia)).
  destruct (q n); cbn [negb]; lia.
Qed.
Lemma found_or_none :
  how_many (fun s => one_found (fun _ => true) (wild_generate fuel junk g s delay initial 1 area)) (2^32) +
  how_many (fun s => none_found (wild_generate fuel junk g s delay initial 1 area)) (2^32) = 2^32.
Proof.
  apply complement. intros s Hs. pose proof (one_advance s Hs) as O. cbv zeta in O.
  destruct (check_fails _ _ _); [rewrite O; reflexivity|]. destruct O as (mods & st & d & -> & _). reflexivity.
Qed.
Lemma always_found : needs_check g = false ->
  how_many (fun s => one_found (fun _ => true) (wild_generate fuel junk g s delay initial 1 area)) (2^32) = 2^32.
Proof.
  intros C. apply how_many_all. intros s Hs. pose proof (one_advance s Hs) as O. cbv zeta in O.
  rewrite (proj1 (no_check _ C)) in O. destruct O as (mods & st & d & -> & _). reflexivity.
Qed.

(** Natures: the rand of the nature is always at the same place. *)
Definition before_nature : N :=
  (if (w_lead g =? Lead_MAGNET_PULL) || (w_lead g =? Lead_STATIC) then 2 else 1) +
  (if w_lead g =? Lead_PRESSURE then 2 else 1) +
  (if is_rse_safari_zone area (w_game g) then 1 else 0).
Lemma not_charming : is_cute_charm g = false.
Proof.
  destruct He as (_ & _ & L1 & L2). unfold is_cute_charm. apply N.eqb_neq in L1, L2. now rewrite L1, L2.
Qed.
Lemma drawn_nature x mods d : needs_check g = false ->
  drawn x g area mods (is_rse_safari_zone area (w_game g)) d ->
  exists p, nature_choice x g before_nature = (d_nature d, p).
Proof.
  intros C (_ & p1 & p2 & p3 & p4 & S & L & _ & Ch & P4 & Na & _).
  rewrite (proj2 (no_check x C)) in S. unfold charm_choice in Ch. rewrite not_charming in Ch. injection Ch as _ <-.
  assert (E1 : p1 = if (w_lead g =? Lead_MAGNET_PULL) || (w_lead g =? Lead_STATIC) then 2 else 1).
  { unfold slot_choice in S. destruct (_ || _); [destruct (_ && _)|]; injection S as _ <-; reflexivity. }
  assert (E2 : p2 = p1 + if w_lead g =? Lead_PRESSURE then 2 else 1).
  { unfold level_choice in L. destruct (w_lead g =? Lead_PRESSURE); injection L as _ <-; reflexivity. }
  exists (d_first d). rewrite <- Na. f_equal. rewrite P4, E2, E1. reflexivity.
Qed.
Lemma nature_rate n : needs_check g = false -> Lead_SYNCHRONIZE_QUIRKY < w_lead g -> n < 25 ->
  how_many (fun s => one_found (fun st => g_nature st =? n) (wild_generate fuel junk g s delay initial 1 area)) (2^32) =
  2^16 * with_remainder (2^16) 25 n.
Proof.
  intros C L Hn. rewrite <- remainder_count by lia.
  rewrite <- (any_rand_count (initial + delay) (before_nature + 1) (fun h => h mod 25 =? n)).
  apply how_many_ext. intros s Hs. pose proof (one_advance s Hs) as O. cbv zeta in O.
  rewrite (proj1 (no_check _ C)) in O. destruct O as (mods & st & d & -> & D & S). cbn [one_found].
  destruct (drawn_nature _ _ _ C D) as (p & E). destruct S as (_ & _ & _ & _ & _ & _ & -> & _).
  unfold nature_choice in E. apply N.leb_gt in L. rewrite L in E. injection E as <- _. reflexivity.
Qed.
Lemma how_many_mono p q n : (forall i, i < n -> p i = true -> q i = true) -> how_many p n <= how_many q n.
Proof.
  induction n as [|n IH] using N.peano_ind; intros H; [reflexivity|]. rewrite !how_many_succ.
  specialize (IH ltac:(intros i Hi; apply H; lia)). specialize (H n ltac:(lia)).
  destruct (p n), (q n); try lia.
Qed.
Lemma synchronize_rate : needs_check g = false -> w_lead g <= Lead_SYNCHRONIZE_QUIRKY ->
  2^31 <= how_many (fun s => one_found (fun st => g_nature st =? w_lead g) (wild_generate fuel junk g s delay initial 1 area)) (2^32).
Proof.
  intros C L. transitivity (2^16 * with_remainder (2^16) 2 0); [vm_compute; discriminate|].
  rewrite <- remainder_count by lia.
  rewrite <- (any_rand_count (initial + delay) (before_nature + 1) (fun h => h mod 2 =? 0)).
  apply how_many_mono. intros s Hs Ev. pose proof (one_advance s Hs) as O. cbv zeta in O.
  rewrite (proj1 (no_check _ C)) in O. destruct O as (mods & st & d & -> & D & S). cbn [one_found].
  destruct (drawn_nature _ _ _ C D) as (p & E). destruct S as (_ & _ & _ & _ & _ & _ & -> & _).
  unfold nature_choice in E. apply N.leb_le in L. rewrite L, Ev in E. injection E as <- _. apply N.eqb_refl.
Qed.

(** Species. *)
Definition of_species (o : option slot3) (sp : N) : bool :=
  match o with Some t => species_of t =? sp | None => false end.
Lemma species_share_eq sp : forall bounds slots lo, length bounds = length slots ->
  total (fun v => if of_species (nth_error slots (N.to_nat v)) sp
                  then share (nth (N.to_nat v) (lo :: bounds) 0) (nth (N.to_nat v) bounds 0) else 0) (N.of_nat (length slots)) =
  species_share lo bounds slots sp.
Proof.
  induction bounds as [|b bounds IH]; intros [|t slots] lo L; try discriminate L; [reflexivity|].
  cbn [length]. rewrite Nat2N.inj_succ, total_front. cbn [species_share]. injection L as L. f_equal.
  rewrite <- (IH slots b L). apply total_ext. intros v _. rewrite N2Nat.inj_succ. reflexivity.
Qed.
Lemma species_rate sp : needs_check g = false -> w_lead g <> Lead_MAGNET_PULL -> w_lead g <> Lead_STATIC ->
  how_many (fun s => one_found (fun st => g_species st =? sp) (wild_generate fuel junk g s delay initial 1 area)) (2^32) =
  2^16 * species_share 0 (library_bounds (w_encounter g)) (slots_of area (w_encounter g)) sp.
Proof.
  intros C M T. set (e := w_encounter g). assert (Sh : area_shape area) by (destruct He as [[[A _] _] _]; exact A).
  pose proof (bounds_length area e Sh) as L. rewrite <- species_share_eq by (symmetry; exact L).
  transitivity (2^16 * how_many (fun h => of_species (nth_error (slots_of area e) (N.to_nat (mark (h mod 100) (cumulative_of e)))) sp) (2^16)).
  - rewrite <- (any_rand_count (initial + delay) 1 (fun h => of_species (nth_error (slots_of area e) (N.to_nat (mark (h mod 100) (cumulative_of e)))) sp)).
    apply how_many_ext. intros s Hs. pose proof (one_advance s Hs) as O. cbv zeta in O.
    rewrite (proj1 (no_check _ C)) in O. destruct O as (mods & st & d & -> & D & S). cbn [one_found].
    destruct S as (_ & _ & -> & _). destruct D as (_ & p1 & p2 & p3 & p4 & Sl & _).
    rewrite (proj2 (no_check (rand_at s) C)) in Sl. unfold slot_choice in Sl. apply N.eqb_neq in M, T. rewrite M, T in Sl.
    cbn [orb] in Sl. injection Sl as Sl _. change (0 + 1) with 1 in Sl. fold e in Sl. unfold mark. rewrite Sl. reflexivity.
  - f_equal. rewrite (how_many_by_value (fun v => of_species (nth_error (slots_of area e) (N.to_nat v)) sp)
      (fun h => mark (h mod 100) (cumulative_of e)) (N.of_nat (length (slots_of area e))) (2^16)).
    2:{ intros h _. rewrite L. apply mark_lt. }
    apply total_ext. intros v Hv.
    pose proof (slot_rolls e (N.to_nat v) ltac:(lia)) as R. rewrite N2Nat.id in R. rewrite R. reflexivity.
Qed.
End One.
