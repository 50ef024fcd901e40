(** Proofs about Model/Gen3State.v. *)
From Coq Require Import NArith ZArith List Bool Lia Floats.SpecFloat.
From Verif Require Import Base.Word Base.WordLemmas Model.Float Model.Gen3State
  Spec.Gen3Spec Proofs.StatProofs.
Import ListNotations.
Ltac Zify.zify_post_hook ::= idtac.
Open Scope N_scope.

(** * Checking all numbers below 2^d by splitting *)
Fixpoint all_below (d : nat) (b : N) (f : N -> bool) : bool :=
  match d with
  | O => f b
  | S d' => all_below d' (2 * b) f && all_below d' (2 * b + 1) f
  end.
Lemma all_below_spec d : forall b f, all_below d b f = true ->
  forall x, x / 2 ^ N.of_nat d = b -> f x = true.
Proof.
  induction d as [|d IH]; intros b f H x Hx.
  - change (2 ^ N.of_nat 0) with 1 in Hx. rewrite N.div_1_r in Hx. subst. exact H.
  - cbn [all_below] in H. apply andb_prop in H. destruct H as [H0 H1].
    rewrite Nat2N.inj_succ, N.pow_succ_r' in Hx.
    rewrite N.mul_comm, <- N.div_div in Hx by (try apply N.pow_nonzero; lia).
    set (y := x / 2 ^ N.of_nat d) in *.
    destruct (N.eq_dec (y mod 2) 0) as [E|E].
    + apply (IH (2 * b) f H0). fold y. subst b. pose proof (N.div_mod y 2). lia.
    + apply (IH (2 * b + 1) f H1). fold y. subst b.
      pose proof (N.div_mod y 2). pose proof (N.mod_lt y 2). lia.
Qed.
Lemma all_below_0 d f : all_below d 0 f = true -> forall x, x < 2 ^ N.of_nat d -> f x = true.
Proof. intros H x Hx. apply (all_below_spec d 0 f H). now apply N.div_small. Qed.

(** * compute_stat *)
(** The truncated products, as words. *)
Lemma stat_words s : s < 65536 ->
  w16 (Z.to_N (f_trunc (f32_mul (f32_of_N s) m90))) = s * 9 / 10 /\
  w16 (Z.to_N (f_trunc (f32_mul (f32_of_N s) m100))) = s /\
  w16 (Z.to_N (f_trunc (f32_mul (f32_of_N s) m110))) = w16 (s * 11 / 10).
Proof.
  intros H. unfold f32_of_N. rewrite stat_90, stat_100, stat_110 by lia.
  assert (L9 : s * 9 / 10 < 65536) by (apply N.div_lt_upper_bound; lia).
  assert (E9 : Z.to_N (Z.of_N s * 9 / 10) = s * 9 / 10).
  { change 9%Z with (Z.of_N 9). change 10%Z with (Z.of_N 10). rewrite <- N2Z.inj_mul, <- N2Z.inj_div. apply N2Z.id. }
  assert (E11 : Z.to_N (Z.of_N s * 11 / 10) = s * 11 / 10).
  { change 11%Z with (Z.of_N 11). change 10%Z with (Z.of_N 10). rewrite <- N2Z.inj_mul, <- N2Z.inj_div. apply N2Z.id. }
  rewrite E9, E11, N2Z.id. rewrite !w16_small by assumption. now repeat split.
Qed.

Definition pick_mod (up down : bool) :=
  if up then if down then m100 else m110 else if down then m90 else m100.
Lemma modifiers_table : forall n c, (n < 25)%nat -> (c < 5)%nat ->
  exists row, nth_error NATURE_MODIFIERS n = Some row /\
    nth_error row c = Some (pick_mod (n / 5 =? c)%nat (n mod 5 =? c)%nat).
Proof.
  assert (E : NATURE_MODIFIERS =
    map (fun n => map (fun c => pick_mod (n / 5 =? c)%nat (n mod 5 =? c)%nat) (seq 0 5)) (seq 0 25))
    by now vm_compute.
  intros n c Hn Hc. rewrite E.
  exists (map (fun c => pick_mod (n / 5 =? c)%nat (n mod 5 =? c)%nat) (seq 0 5)). split.
  - rewrite nth_error_map.
    rewrite nth_error_nth' with (d := O) by (rewrite seq_length; lia).
    rewrite seq_nth by lia. reflexivity.
  - rewrite nth_error_map.
    rewrite nth_error_nth' with (d := O) by (rewrite seq_length; lia).
    rewrite seq_nth by lia. reflexivity.
Qed.

Lemma compute_stat_column s n i :
  s < 65536 -> n < 25 -> 1 <= i <= 5 ->
  compute_stat s n i =
    Ok (w16 (modified (n / 5 =? i - 1) (n mod 5 =? i - 1) s)).
Proof.
  intros Hs Hn Hi. unfold compute_stat.
  destruct (N.eqb_spec i 0) as [E|_]; [lia|].
  destruct (modifiers_table (N.to_nat n) (N.to_nat (i - 1))) as (row & Er & Ef); try lia.
  rewrite Er, Ef.
  assert (E1 : (N.to_nat n / 5 =? N.to_nat (i - 1))%nat = (n / 5 =? i - 1)).
  { change 5%nat with (N.to_nat 5). rewrite <- N2Nat.inj_div.
    destruct (N.eqb_spec (n / 5) (i - 1)) as [->|H]; [apply Nat.eqb_refl|].
    apply Nat.eqb_neq. lia. }
  assert (E2 : (N.to_nat n mod 5 =? N.to_nat (i - 1))%nat = (n mod 5 =? i - 1)).
  { change 5%nat with (N.to_nat 5). rewrite <- N2Nat.inj_mod.
    destruct (N.eqb_spec (n mod 5) (i - 1)) as [->|H]; [apply Nat.eqb_refl|].
    apply Nat.eqb_neq. lia. }
  rewrite E1, E2. f_equal.
  destruct (stat_words s Hs) as (H90 & H100 & H110).
  assert (L9 : s * 9 / 10 < 65536) by (apply N.div_lt_upper_bound; lia).
  unfold modified, pick_mod.
  destruct (n / 5 =? i - 1), (n mod 5 =? i - 1).
  - rewrite H100. symmetry. now apply w16_small.
  - exact H110.
  - rewrite H90. symmetry. now apply w16_small.
  - rewrite H100. symmetry. now apply w16_small.
Qed.

Lemma modified_small up down s : s * 11 / 10 < 65536 -> w16 (modified up down s) = modified up down s.
Proof.
  intros H. apply w16_small.
  assert (s * 10 / 10 <= s * 11 / 10) by (apply N.div_le_mono; lia).
  rewrite N.div_mul in * by lia.
  assert (s * 9 / 10 <= s * 11 / 10) by (apply N.div_le_mono; lia).
  unfold modified. destruct up, down; lia.
Qed.

(** The number of a stat in the columns of the table. *)
Definition column (s : stat) : N :=
  match s with Atk => 0 | Def => 1 | Spe => 2 | SpA => 3 | SpD => 4 end.
Lemma natures_columns n s : n < 25 ->
  nature_stat n s = modified (n / 5 =? column s) (n mod 5 =? column s).
Proof.
  intros H. unfold nature_stat.
  assert (E : forallb (fun k =>
      let n := N.of_nat k in
      let '(u, d) := nth k natures (Atk, Atk) in
      Bool.eqb (stat_eqb u s) (n / 5 =? column s)
      && Bool.eqb (stat_eqb d s) (n mod 5 =? column s)) (seq 0 25) = true)
    by (destruct s; vm_compute; reflexivity).
  rewrite forallb_forall in E. specialize (E (N.to_nat n)).
  rewrite N2Nat.id in E. cbv zeta in E.
  destruct (nth (N.to_nat n) natures (Atk, Atk)) as [u d].
  assert (Hin : In (N.to_nat n) (seq 0 25)) by (apply in_seq; lia).
  specialize (E Hin). apply andb_prop in E. destruct E as [E1 E2].
  apply eqb_prop in E1, E2. now rewrite E1, E2.
Qed.

Lemma c40 s n i : s < 2^16 -> s * 11 / 10 < 2^16 -> n < 25 -> 1 <= i <= 5 ->
  compute_stat s n i = Ok (modified (n / 5 =? i - 1) (n mod 5 =? i - 1) s).
Proof.
  intros H1 H2 H3 H4. rewrite (compute_stat_column s n i H1 H3 H4).
  f_equal. now apply modified_small.
Qed.

(** * gender, shininess, Unown *)
Lemma c42_gender pid ratio : get_gender pid ratio = gender_code (gender_of pid ratio).
Proof.
  unfold get_gender, gender_of.
  destruct (ratio =? 255); [reflexivity|]. destruct (ratio =? 254); [reflexivity|].
  destruct (ratio =? 0); [reflexivity|].
  change 0xFF with (N.ones 8). rewrite N.land_ones. change (2^8) with 256.
  destruct (pid mod 256 <? ratio); reflexivity.
Qed.

Lemma c42_shiny pid tsv : get_shiny pid tsv = shiny_code (shiny_of pid tsv).
Proof.
  unfold get_shiny, shiny_of. cbv zeta.
  rewrite N.shiftr_div_pow2. change 0xFFFF with (N.ones 16). rewrite N.land_ones.
  change (2^16) with 65536.
  set (p := N.lxor (pid / 65536) (pid mod 65536)).
  destruct (N.eqb_spec tsv p) as [->|E].
  - rewrite N.lxor_nilpotent. reflexivity.
  - destruct (N.eqb_spec (N.lxor tsv p) 0) as [E'|E'].
    + apply N.lxor_eq in E'. contradiction.
    + destruct (N.lxor tsv p <? 8); reflexivity.
Qed.

Lemma land_two pid k j : j <= k ->
  N.shiftr (N.land pid (N.shiftl 3 k)) (k - j)
  = 2 ^ (j + 1) * bit pid (k + 1) + 2 ^ j * bit pid k.
Proof.
  intros Hj.
  assert (E : N.land pid (N.shiftl 3 k) = N.shiftl (N.land (N.shiftr pid k) 3) k).
  { apply N.bits_inj. intros i. rewrite N.land_spec.
    destruct (N.le_gt_cases k i) as [H|H].
    - rewrite !N.shiftl_spec_high' by exact H. rewrite N.land_spec, N.shiftr_spec'.
      now replace (i - k + k) with i by lia.
    - rewrite !N.shiftl_spec_low by exact H. now rewrite andb_false_r. }
  rewrite E.
  replace (N.shiftl (N.land (N.shiftr pid k) 3) k)
    with (N.shiftl (N.shiftl (N.land (N.shiftr pid k) 3) j) (k - j))
    by (rewrite N.shiftl_shiftl; f_equal; lia).
  rewrite N.shiftr_shiftl_l by lia. rewrite N.sub_diag, N.shiftl_0_r.
  rewrite N.shiftl_mul_pow2.
  assert (B : N.land (N.shiftr pid k) 3 = 2 * bit pid (k + 1) + bit pid k).
  { unfold bit. change 3 with (N.ones 2). rewrite N.land_ones. change (2^2) with 4.
    set (y := N.shiftr pid k).
    replace (N.testbit pid (k + 1)) with (N.testbit y 1)
      by (unfold y; rewrite N.shiftr_spec'; f_equal; lia).
    replace (N.testbit pid k) with (N.testbit y 0)
      by (unfold y; rewrite N.shiftr_spec'; f_equal; lia).
    change 4 with (2 * 2). rewrite N.mod_mul_r by lia.
    rewrite !N.testbit_spec'. change (2^1) with 2. change (2^0) with 1.
    rewrite N.div_1_r. lia. }
  rewrite B, N.pow_add_r. change (2^1) with 2. lia.
Qed.

Lemma unown_letter_eq pid form : unown_check pid form = (unown_letter pid =? form).
Proof.
  unfold unown_check, unown_letter. cbv zeta.
  change 0x3000000 with (N.shiftl 3 24). change 0x30000 with (N.shiftl 3 16).
  change 0x300 with (N.shiftl 3 8). change 18 with (24 - 6). change 12 with (16 - 4).
  change (N.shiftr (N.land pid (N.shiftl 3 8)) 6) with (N.shiftr (N.land pid (N.shiftl 3 8)) (8 - 2)).
  replace (N.land pid 3) with (N.shiftr (N.land pid (N.shiftl 3 0)) (0 - 0))
    by (cbn [N.sub]; rewrite N.shiftr_0_r; reflexivity).
  rewrite !land_two by lia.
  change (24 + 1) with 25. change (16 + 1) with 17. change (8 + 1) with 9. change (0 + 1) with 1.
  f_equal. f_equal. unfold bit.
  destruct (N.testbit pid 25), (N.testbit pid 24), (N.testbit pid 17), (N.testbit pid 16),
    (N.testbit pid 9), (N.testbit pid 8), (N.testbit pid 1), (N.testbit pid 0); reflexivity.
Qed.

Lemma unown_letter_lt pid : unown_letter pid < 28.
Proof. unfold unown_letter. apply N.mod_lt. discriminate. Qed.

Lemma c42_unown pid : exists l, l < 28 /\ forall form, unown_check pid form = true <-> form = l.
Proof.
  exists (unown_letter pid). split; [apply unown_letter_lt|].
  intros form. rewrite unown_letter_eq, N.eqb_eq. split; auto.
Qed.
