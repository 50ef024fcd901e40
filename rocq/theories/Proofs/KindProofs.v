(** Every slot with every nature, gender and ability. *)
From Coq Require Import NArith ZArith List Bool Lia.
From Verif Require Import Base.Word Base.WordLemmas Model.Gen3State Model.Gen3Area Model.Gen3Wild
  Spec.LcrngSpec Spec.Gen3Spec Spec.Gen3WildSpec Spec.CountSpec Spec.WildRateSpec Spec.SisterSpec
  Proofs.Gen3AreaProofs Proofs.Gen3Pid Proofs.LcrngRecover Proofs.Gen3Recover Proofs.Gen3Props Proofs.WildRate Proofs.SpreadProofs
  Proofs.NatureSeeds Proofs.NatureProofs Proofs.LevelProofs Proofs.KindSeeds Spec.WildRateSpec.
Import ListNotations.
Open Scope list_scope.
Open Scope N_scope.
Ltac Zify.zify_post_hook ::= idtac.

Definition seven_rands (u : N) : list N :=
  let s1 := quick_next u in let s2 := quick_next s1 in N.shiftr s1 16 :: N.shiftr s2 16 :: five_rands s2.
Lemma seven_rands_ok u : seven_rands u = map (fun k => rand_at u (N.of_nat k)) (seq 1 7).
Proof.
  unfold seven_rands. cbv zeta. rewrite five_rands_ok, !quick_next_ok, !N.shiftr_div_pow2. change (2^16) with 65536.
  assert (R : forall k, rand_at (lcg 32 0x41C64E6D 0x6073 (lcg 32 0x41C64E6D 0x6073 u)) k = rand_at u (2 + k)).
  { intros k. rewrite <- rand_at_steps. reflexivity. }
  rewrite !R. reflexivity.
Qed.
(** [up]: the upper end of the low byte; [b]: the lowest bit. *)
Definition kind_fits (mode : nat * nat * nat) (v n : N) (up : bool) (b u : N) : bool :=
  let '(sp, op, np) := mode in let r := seven_rands u in let lo := nth (S np) r 0 in let low := N.land lo 255 in
  (N.shiftr u 32 =? 0) && (nth sp r 0 mod 100 =? v) && N.odd (nth op r 0) && (nth np r 0 mod 25 =? n) &&
  ((lo + 65536 * nth (S (S np)) r 0) mod 25 =? n) && (if up then 225 <=? low else low <? 31) && (N.land low 1 =? b).
Fixpoint all_kinds (mode : nat * nat * nat) (v n : N) (l : list (list N)) : bool :=
  match l with
  | [] => n =? 25
  | [a; b; c; d] :: l' =>
      if kind_fits mode v n false 0 a && kind_fits mode v n false 1 b && kind_fits mode v n true 0 c && kind_fits mode v n true 1 d
      then all_kinds mode v (N.succ n) l' else false
  | _ => false
  end.
Definition all_kind_rolls (mode : nat * nat * nat) (ls : list (list (list N))) : bool :=
  (length ls =? length slot_rolls)%nat && forallb (fun '(v, l) => all_kinds mode v 0 l) (combine slot_rolls ls).
Lemma kind_seeds_ok : (length kind_seeds =? length nature_modes)%nat && forallb (fun '(m, ls) => all_kind_rolls m ls) (combine nature_modes kind_seeds) = true.
Proof. vm_compute. reflexivity. Qed.
Lemma all_kinds_in mode v up b : b < 2 -> forall l n, all_kinds mode v n l = true -> forall k, n <= k < 25 -> exists u, kind_fits mode v k up b u = true.
Proof.
  intros Hb. induction l as [|q l IH]; intros n H k K; cbn [all_kinds] in H.
  - apply N.eqb_eq in H. lia.
  - destruct q as [|q0 [|q1 [|q2 [|q3 [|? ?]]]]]; try discriminate H. destruct (_ && _) eqn:F; [|discriminate H].
    rewrite !andb_true_iff in F. destruct F as [[[F0 F1] F2] F3]. destruct (N.eq_dec k n) as [->|D].
    + assert (B : b = 0 \/ b = 1) by lia. destruct B as [-> | ->], up; eexists; eassumption.
    + apply (IH _ H). lia.
Qed.
Lemma kind_seed_for mode v n up b : In mode nature_modes -> In v slot_rolls -> n < 25 -> b < 2 -> exists u, kind_fits mode v n up b u = true.
Proof.
  pose proof kind_seeds_ok as E. revert E. generalize kind_seeds. intros t E Hm Hv Hn Hb. apply andb_true_iff in E. destruct E as [L E].
  apply Nat.eqb_eq in L. destruct (combine_in mode _ t L Hm) as [ls H]. rewrite forallb_forall in E. specialize (E _ H). cbv beta iota in E.
  apply andb_true_iff in E. destruct E as [L' E]. apply Nat.eqb_eq in L'. destruct (combine_in v _ ls L' Hv) as [l H'].
  rewrite forallb_forall in E. specialize (E _ H'). cbv beta iota in E. apply (all_kinds_in mode v up b Hb l 0 E). lia.
Qed.
Lemma low_byte lo hi : (lo + 65536 * hi) mod 256 = N.land lo 255.
Proof.
  change 65536 with (256 * 256). rewrite <- N.mul_assoc, N.mul_comm, N.mul_comm. rewrite (N.mul_comm 256), N.mod_add by discriminate.
  change 255 with (N.ones 8). rewrite N.land_ones. reflexivity.
Qed.
Lemma low_bit lo hi : (lo + 65536 * hi) mod 2 = N.land (N.land lo 255) 1.
Proof.
  change 65536 with (2 * 32768). rewrite <- N.mul_assoc, (N.mul_comm 2), N.mod_add by discriminate.
  rewrite <- N.land_assoc. change (N.land 255 1) with (N.ones 1). rewrite N.land_ones. reflexivity.
Qed.

Section One.
Variables (fuel : nat) (junk : list N) (g : wildgen) (area : area3) (initial delay : N).
Hypothesis Hj : length junk = 6%nat.
Hypothesis He : search_ends g area.
Hypothesis Hc : needs_check g = false.
Hypothesis Hf : 2^31 <= N.of_nat fuel.
Hypothesis Hd : initial + delay < 2^32.

Lemma slot_and_kind k slot n (up : bool) b : nth_error (slots_of area (w_encounter g)) k = Some slot -> species_of slot <> 201 -> n < 25 -> b < 2 ->
  exists seed st info, seed < 2^32 /\ wild_generate fuel junk g seed delay initial 1 area = Ok [st] /\
    g_species st = species_of slot /\ g_form st = form_of slot /\ g_nature st = n /\ g_ability st = b /\
    (if up then 225 <= g_pid st mod 256 else g_pid st mod 256 < 31) /\
    nth_error (w_table g) (N.to_nat (species_of slot)) = Some info /\
    g_gender st = gender_code (gender_of (g_pid st) (pi_gender_ratio info)) /\
    g_ability_index st = (if b =? 0 then pi_ability_1 info else pi_ability_2 info).
Proof.
  intros Hk Hun Hn Hb. destruct (roll_for area (w_encounter g) k (proj1 (proj1 (proj1 He)))) as (v & V & Q); [apply nth_error_Some; rewrite Hk; discriminate|].
  destruct (kind_seed_for (mode_of g area) v n up b (mode_in g area) V Hn Hb) as (u & U). unfold kind_fits in U. destruct (mode_of g area) as [[sp op] np] eqn:M.
  rewrite !andb_true_iff in U. destruct U as [[[[[[U0 U1] U2] U3] U4] U5] U6]. rewrite seven_rands_ok in U1, U2, U3, U4, U5, U6.
  assert (Hu : u < 2^32) by (apply small_seed, U0).
  destruct (steps_onto (initial + delay) u Hu) as (s & Hs & Es).
  pose proof (one_advance fuel junk g area initial delay Hj He Hf Hd s Hs) as O. cbv zeta in O.
  rewrite (proj1 (no_check g area _ Hc)) in O. destruct O as (mods & st & d & E & D & S).
  exists s, st, (d_info d). split; [exact Hs|]. split; [exact E|].
  change (after (initial + delay) s) with (steps (initial + delay) s) in D. rewrite Es in D.
  destruct S as (_ & S0 & S1 & S2 & _ & _ & S4 & S4' & S5 & S6 & S7 & _). rewrite S0, S1, S2, S5, S6, S7.
  destruct D as (_ & p1 & p2 & p3 & p4 & Sl & Le & Ti & Ch & P4 & Na & Tr & Dp & Dk & _).
  rewrite (proj2 (no_check g area (fun _ => 0) Hc)) in Sl.
  unfold charm_choice in Ch. rewrite (not_charming g area He) in Ch. injection Ch as Ch <-.
  apply N.eqb_eq in U1, U3, U4, U6. apply odd_mod in U2. clear U0. set (x := rand_at u) in *. clearbody x.
  assert (E2 : p2 = p1 + if w_lead g =? Lead_PRESSURE then 2 else 1).
  { unfold level_choice in Le. destruct (w_lead g =? Lead_PRESSURE); injection Le as _ <-; reflexivity. }
  assert (Both : d_slot d = slot /\ d_nature d = n /\ d_first d = N.of_nat (S np) /\ (np < 5)%nat).
  { unfold slot_choice in Sl. unfold nature_choice in Na. unfold mode_of, attracting in M.
    destruct ((w_lead g =? Lead_MAGNET_PULL) || (w_lead g =? Lead_STATIC)) eqn:At.
    - assert (L : (w_lead g <=? Lead_SYNCHRONIZE_QUIRKY) = false /\ (w_lead g =? Lead_PRESSURE) = false).
      { apply orb_true_iff in At. destruct At as [At|At]; apply N.eqb_eq in At; rewrite At; split; reflexivity. }
      destruct L as [L1 L2]. rewrite L1 in Na. rewrite L2 in E2.
      assert (O1 : (x (0 + 1) mod 2 =? 0) = false /\ x (0 + 1 + 1) mod 100 = v).
      { destruct (is_rse_safari_zone _ _); injection M as <- <- <-; split; assumption. }
      destruct O1 as [O1 O2]. rewrite O1, O2, Q, Hk in Sl. cbn [andb] in Sl. injection Sl as Sl P1. split; [now symmetry|].
      rewrite E2, <- P1 in P4. rewrite P4 in Na.
      destruct (is_rse_safari_zone _ _); injection M as <- <- <-; injection Na as <- <-; (split; [exact U3|split; [reflexivity|lia]]).
    - assert (O2 : x (0 + 1) mod 100 = v).
      { destruct (w_lead g =? Lead_PRESSURE), (w_lead g <=? _), (is_rse_safari_zone _ _); injection M as <- <- <-; exact U1. }
      rewrite O2, Q, Hk in Sl. injection Sl as Sl P1. split; [now symmetry|]. rewrite E2, <- P1 in P4.
      destruct (w_lead g =? Lead_PRESSURE) eqn:Pr.
      + assert (L : (w_lead g <=? Lead_SYNCHRONIZE_QUIRKY) = false) by (apply N.eqb_eq in Pr; rewrite Pr; reflexivity). rewrite L, P4 in Na.
        destruct (is_rse_safari_zone _ _); injection M as <- <- <-; injection Na as <- <-; (split; [exact U3|split; [reflexivity|lia]]).
      + destruct (w_lead g <=? Lead_SYNCHRONIZE_QUIRKY).
        * destruct (is_rse_safari_zone _ _); injection M as <- <- <-.
          -- assert (P5 : p4 + 1 = 4 /\ p4 + 2 = 5) by (rewrite P4; split; reflexivity). destruct P5 as [P5 P6].
             change (x 4 mod 2 =? 0 = false) in U2. rewrite P5, P6, U2 in Na. injection Na as <- <-. split; [exact U3|split; [reflexivity|lia]].
          -- assert (P5 : p4 + 1 = 3 /\ p4 + 2 = 4) by (rewrite P4; split; reflexivity). destruct P5 as [P5 P6].
             change (x 3 mod 2 =? 0 = false) in U2. rewrite P5, P6, U2 in Na. injection Na as <- <-. split; [exact U3|split; [reflexivity|lia]].
        * rewrite P4 in Na. destruct (is_rse_safari_zone _ _); injection M as <- <- <-; injection Na as <- <-; (split; [exact U3|split; [reflexivity|lia]]). }
  destruct Both as (B1 & B2 & B3 & B4). rewrite B1, B2 in *.
  assert (N1 : nth (S np) (map (fun k => x (N.of_nat k)) (seq 1 7)) 0 = x (d_first d + 1) /\
               nth (S (S np)) (map (fun k => x (N.of_nat k)) (seq 1 7)) 0 = x (d_first d + 2)).
  { rewrite B3. clear - B4. do 5 (destruct np as [|np]; [split; reflexivity|]). exfalso. lia. }
  destruct N1 as [N1 N2]. rewrite N1, N2 in U4. rewrite N1 in U5, U6.
  assert (P : d_pid d = pid_at x (d_first d)).
  { destruct (d_tries d) as [|t] eqn:T; [rewrite Dp, N.mul_0_r, N.add_0_r; reflexivity|]. exfalso. apply (Tr 0 eq_refl).
    rewrite N.mul_0_r, N.add_0_r. unfold accepts, pid_at. split; [exact U4|]. split; [intros X; rewrite <- Ch in X; discriminate X|]. intros X. contradiction. }
  rewrite P. unfold pid_at. rewrite low_byte, low_bit, U6.
  split; [reflexivity|]. split; [reflexivity|]. split; [exact S4|]. split; [reflexivity|].
  split; [destruct up; [apply N.leb_le in U5|apply N.ltb_lt in U5]; exact U5|]. split; [exact Ti|]. split; [reflexivity|]. reflexivity.
Qed.
End One.
