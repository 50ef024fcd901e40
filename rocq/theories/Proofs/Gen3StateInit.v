(** Proofs about [gstate_new]. *)
From Coq Require Import NArith ZArith List Bool Lia Floats.SpecFloat.
From Verif Require Import Base.Word Base.WordLemmas Model.Float Model.Gen3State
  Spec.Gen3Spec Proofs.Gen3StateProofs.
Import ListNotations.
Ltac Zify.zify_post_hook ::= idtac.
Open Scope N_scope.

(** Numbers below 6. *)
Lemma below_6 (P : N -> Prop) : P 0 -> P 1 -> P 2 -> P 3 -> P 4 -> P 5 ->
  forall i, i < 6 -> P i.
Proof.
  intros. assert (i = 0 \/ i = 1 \/ i = 2 \/ i = 3 \/ i = 4 \/ i = 5) as K by lia.
  destruct K as [-> | [-> | [-> | [-> | [-> | ->]]]]]; assumption.
Qed.

Lemma char_order e i : e < 6 -> i < 6 -> aget CHAR_ORDER (N.to_nat e + N.to_nat i) = (e + i) mod 6.
Proof.
  intros He Hi. revert e He. revert i Hi.
  refine (below_6 _ _ _ _ _ _ _); refine (below_6 _ _ _ _ _ _ _); reflexivity.
Qed.
Lemma order_iv ivs k : k < 6 ->
  aget ivs (N.to_nat (aget ORDER (N.to_nat k))) = iv_in_game_order ivs k.
Proof. revert k. refine (below_6 _ _ _ _ _ _ _); reflexivity. Qed.

Definition at_cyc (pid : N) (ivs : list N) (j : N) : N :=
  iv_in_game_order ivs ((pid mod 6 + j) mod 6).

(** One comparison of the characteristic. *)
Definition char_step (pid : N) (ivs : list N) (j : N) (s : N * N) : N * N :=
  if snd s <? at_cyc pid ivs j then ((pid mod 6 + j) mod 6, at_cyc pid ivs j) else s.

Definition char_inv (pid : N) (ivs : list N) (i : N) (s : N * N) : Prop :=
  (forall j, j < i -> at_cyc pid ivs j <= snd s) /\
  exists d, d < 6 /\ fst s = (pid mod 6 + d) mod 6 /\
    ((d = 0 /\ snd s = 0) \/ (d < i /\ at_cyc pid ivs d = snd s)) /\
    forall j, j < d -> at_cyc pid ivs j < snd s.

Lemma char_inv_step pid ivs i s : i < 6 -> char_inv pid ivs i s ->
  char_inv pid ivs (i + 1) (char_step pid ivs i s).
Proof.
  intros Hi (Hmax & d & Hd & Hc & Hv & Hf). unfold char_step.
  destruct (N.ltb_spec (snd s) (at_cyc pid ivs i)) as [L|L].
  - split; cbn [fst snd].
    + intros j Hj. destruct (N.eq_dec j i) as [->|]; [lia|].
      assert (Hj' : j < i) by lia. specialize (Hmax j Hj'). lia.
    + exists i. repeat split; try lia.
      intros j Hj. specialize (Hmax j Hj). lia.
  - split.
    + intros j Hj. destruct (N.eq_dec j i) as [->|]; [exact L|]. apply Hmax. lia.
    + exists d. repeat split; try assumption.
      destruct Hv as [Hv|[Hv1 Hv2]]; [left; exact Hv|right; split; [lia|exact Hv2]].
Qed.

Definition char_run (pid : N) (ivs : list N) : N * N :=
  char_step pid ivs 5 (char_step pid ivs 4 (char_step pid ivs 3 (char_step pid ivs 2
    (char_step pid ivs 1 (char_step pid ivs 0 (pid mod 6, 0)))))).
Lemma char_run_inv pid ivs : char_inv pid ivs 6 (char_run pid ivs).
Proof.
  unfold char_run.
  assert (H0 : char_inv pid ivs 0 (pid mod 6, 0)).
  { split; cbn [fst snd]; [intros; lia|]. exists 0.
    split; [lia|]. split; [|split; [left; split; reflexivity|intros; lia]].
    rewrite N.add_0_r. symmetry. apply N.mod_small. apply N.mod_lt. discriminate. }
  change 6 with (5 + 1). apply char_inv_step; [lia|].
  change 5 with (4 + 1) at 1. apply char_inv_step; [lia|].
  change 4 with (3 + 1) at 1. apply char_inv_step; [lia|].
  change 3 with (2 + 1) at 1. apply char_inv_step; [lia|].
  change 2 with (1 + 1) at 1. apply char_inv_step; [lia|].
  change 1 with (0 + 1) at 1. apply char_inv_step; [lia|]. exact H0.
Qed.
Lemma char_run_spec pid ivs :
  characteristic_is pid ivs (fst (char_run pid ivs) * 5 + snd (char_run pid ivs) mod 5)
  /\ fst (char_run pid ivs) < 6.
Proof.
  destruct (char_run_inv pid ivs) as (Hmax & d & Hd & Hc & Hv & Hf).
  assert (Ed : at_cyc pid ivs d = snd (char_run pid ivs)).
  { destruct Hv as [[-> Hv]|[_ Hv]]; [|exact Hv]. specialize (Hmax 0). lia. }
  split.
  - exists d. split; [exact Hd|].
    change ((forall j, j < 6 -> at_cyc pid ivs j <= at_cyc pid ivs d) /\
            (forall j, j < d -> at_cyc pid ivs j < at_cyc pid ivs d) /\
            fst (char_run pid ivs) * 5 + snd (char_run pid ivs) mod 5
              = 5 * ((pid mod 6 + d) mod 6) + at_cyc pid ivs d mod 5).
    rewrite Ed, <- Hc. repeat split; [exact Hmax|exact Hf|lia].
  - rewrite Hc. apply N.mod_lt. discriminate.
Qed.

(** The stat stored at index [i] (1 to 5) before and after the nature. *)
Definition stored_stat (nature level : N) (base ivs : list N) (i : nat) : N :=
  match i with
  | O => hp_stat (aget base 0) (aget ivs 0) level
  | _ => modified (nature / 5 =? N.of_nat i - 1) (nature mod 5 =? N.of_nat i - 1)
           (raw_stat (aget base i) (aget ivs i) level)
  end.

Section Loop.
Variables (pid level : N) (base ivs : list N).
Hypothesis Hlevel : level < 256.
Hypothesis Hbase : forall i, aget base i < 256.
Hypothesis Hivs : forall i, aget ivs i < 256.

Lemma core_le i : (2 * aget base i + aget ivs i) * level / 100 <= 1950.
Proof.
  apply N.lt_succ_r. apply N.div_lt_upper_bound; [discriminate|].
  specialize (Hbase i). specialize (Hivs i).
  assert ((2 * aget base i + aget ivs i) * level <= 765 * 255) by (apply N.mul_le_mono; lia).
  lia.
Qed.

Lemma update_body_ok i u :
  (i < 6)%nat -> length (u_stats u) = 6%nat ->
  update_body ivs base level (pid mod 25) (pid mod 6) i u =
    Ok (mkUpd (u_hpv u + 2 ^ N.of_nat i * bit (iv_in_game_order ivs (N.of_nat i)) 0)
              (u_hps u + 2 ^ N.of_nat i * bit (iv_in_game_order ivs (N.of_nat i)) 1)
              (aset (u_stats u) i (stored_stat (pid mod 25) level base ivs i))
              (fst (char_step pid ivs (N.of_nat i) (u_char u, u_max_iv u)))
              (snd (char_step pid ivs (N.of_nat i) (u_char u, u_max_iv u)))).
Proof.
  intros Hi Hlen.
  assert (Hpid : pid mod 25 < 25) by (apply N.mod_lt; discriminate).
  assert (He : pid mod 6 < 6) by (apply N.mod_lt; discriminate).
  unfold update_body. cbv zeta.
  assert (Eiv : aget ivs (N.to_nat (aget ORDER i)) = iv_in_game_order ivs (N.of_nat i)).
  { rewrite <- order_iv by lia. now rewrite Nat2N.id. }
  rewrite Eiv.
  assert (B0 : forall x, N.shiftl (N.land x 1) (N.of_nat i) = 2 ^ N.of_nat i * bit x 0).
  { intros x. rewrite N.shiftl_mul_pow2. change 1 with (N.ones 1) at 1. rewrite N.land_ones.
    unfold bit. rewrite N.testbit_spec'. change (2^0) with 1. rewrite N.div_1_r.
    change (2^1) with 2. apply N.mul_comm. }
  assert (B1 : forall x, N.shiftl (N.land (N.shiftr x 1) 1) (N.of_nat i) = 2 ^ N.of_nat i * bit x 1).
  { intros x. rewrite B0. unfold bit. rewrite N.shiftr_spec'. reflexivity. }
  rewrite B0, B1.
  assert (Estat : match i with
     | O => asetr (u_stats u) i (w16 (w16 ((2 * aget base i + aget ivs i) * level / 100) + level + 10))
     | _ => rbind (compute_stat (w16 (w16 ((2 * aget base i + aget ivs i) * level / 100) + 5)) (pid mod 25) (N.of_nat i))
                  (fun s => asetr (u_stats u) i s)
     end = Ok (aset (u_stats u) i (stored_stat (pid mod 25) level base ivs i))).
  { pose proof (core_le i) as Hc.
    rewrite (w16_small ((2 * aget base i + aget ivs i) * level / 100)) by lia.
    unfold stored_stat.
    destruct i as [|i'].
    - unfold asetr. destruct (Nat.ltb_spec 0 (length (u_stats u))); [|lia].
      unfold hp_stat. rewrite w16_small by lia. reflexivity.
    - rewrite w16_small by lia.
      fold (raw_stat (aget base (S i')) (aget ivs (S i')) level).
      assert (Hr : raw_stat (aget base (S i')) (aget ivs (S i')) level <= 1955)
        by (unfold raw_stat; lia).
      rewrite c40; [|change (2^16) with 65536; lia
                    |apply N.div_lt_upper_bound; [discriminate|change (2^16) with 65536; lia]
                    |exact Hpid|lia].
      cbn [rbind]. unfold asetr. destruct (Nat.ltb_spec (S i') (length (u_stats u))); [|lia].
      reflexivity. }
  rewrite Estat. cbn [rbind].
  replace (aget CHAR_ORDER (N.to_nat (pid mod 6) + i)) with ((pid mod 6 + N.of_nat i) mod 6)
    by (rewrite <- char_order by lia; now rewrite Nat2N.id).
  rewrite order_iv by (apply N.mod_lt; discriminate).
  unfold char_step. fold (at_cyc pid ivs (N.of_nat i)). cbn [fst snd].
  destruct (u_max_iv u <? at_cyc pid ivs (N.of_nat i)); reflexivity.
Qed.

Lemma update_loop junk : length junk = 6%nat ->
  for_range_r 6 0 (update_body ivs base level (pid mod 25) (pid mod 6)) (mkUpd 0 0 junk (pid mod 6) 0) =
    Ok (mkUpd (iv_bits ivs 0) (iv_bits ivs 1)
              (map (stored_stat (pid mod 25) level base ivs) (seq 0 6))
              (fst (char_run pid ivs)) (snd (char_run pid ivs))).
Proof.
  intros Hj.
  destruct junk as [|j0 [|j1 [|j2 [|j3 [|j4 [|j5 [|]]]]]]]; try discriminate Hj.
  cbn [for_range_r].
  do 6 (rewrite update_body_ok by (try reflexivity; lia); cbn [rbind];
        cbn [u_hpv u_hps u_stats u_char u_max_iv aset]; rewrite <- ?surjective_pairing).
  change (2 ^ N.of_nat 0) with 1. change (2 ^ N.of_nat 1) with 2.
  change (2 ^ N.of_nat 2) with 4. change (2 ^ N.of_nat 3) with 8.
  change (2 ^ N.of_nat 4) with 16. change (2 ^ N.of_nat 5) with 32.
  change (N.of_nat 0) with 0. change (N.of_nat 1) with 1. change (N.of_nat 2) with 2.
  change (N.of_nat 3) with 3. change (N.of_nat 4) with 4. change (N.of_nat 5) with 5.
  unfold iv_bits. rewrite !N.mul_1_l, !N.add_0_l. reflexivity.
Qed.
End Loop.

(** The fields of a new state. *)
Lemma gstate_new_ok m junk advance pid species form ivs ability level shiny info :
  length junk = 6%nat -> pid < 2^32 -> level < 256 ->
  (forall i, aget ivs i < 256) ->
  pi_hp info < 256 -> pi_attack info < 256 -> pi_defense info < 256 ->
  pi_special_attack info < 256 -> pi_special_defense info < 256 -> pi_speed info < 256 ->
  exists st, gstate_new m junk advance pid species form ivs ability level shiny info = Ok st /\
    g_advance st = w32 advance /\ g_pid st = pid /\ g_species st = w16 species /\
    g_form st = w8 form /\ g_ivs st = ivs /\ g_ability st = w8 ability /\
    g_ability_index st = (if ability =? 0 then pi_ability_1 info else pi_ability_2 info) /\
    characteristic_is pid ivs (g_characteristic st) /\
    g_gender st = gender_code (gender_of pid (pi_gender_ratio info)) /\
    g_hidden_power st = hidden_power_type ivs /\
    g_hidden_power_strength st = strength_attr m (iv_bits ivs 1) /\
    g_level st = level /\ g_nature st = pid mod 25 /\ g_shiny st = w8 shiny /\
    g_stats st = map (stored_stat (pid mod 25) level
                        [pi_hp info; pi_attack info; pi_defense info; pi_special_attack info;
                         pi_special_defense info; pi_speed info] ivs) (seq 0 6).
Proof.
  intros Hj Hp Hl Hi H1 H2 H3 H4 H5 H6. unfold gstate_new. cbv zeta.
  change (2^32) with 4294967296 in Hp.
  rewrite (w32_small pid) by exact Hp. rewrite (w8_small level) by exact Hl.
  rewrite update_loop; try assumption.
  2:{ intros i. unfold aget. do 6 (destruct i as [|i]; [assumption|]). now destruct i. }
  cbn [rbind]. eexists. split; [reflexivity|].
  cbn [g_advance g_pid g_species g_form g_ivs g_ability g_ability_index g_characteristic
       g_gender g_hidden_power g_hidden_power_strength g_level g_nature g_shiny g_stats
       u_stats u_char u_max_iv u_hpv u_hps].
  repeat split.
  - destruct (char_run_spec pid ivs) as [Hc Hlt].
    rewrite w8_small; [exact Hc|].
    assert (snd (char_run pid ivs) mod 5 < 5) by (apply N.mod_lt; discriminate).
    clear - Hlt H. lia.
  - apply c42_gender.
  - unfold hidden_power_type. apply w8_small.
    assert (B : forall x k, bit x k <= 1) by (intros; unfold bit; destruct (N.testbit x k); cbn; lia).
    apply N.div_lt_upper_bound; [discriminate|]. unfold iv_bits.
    pose proof (B (iv_in_game_order ivs 0) 0). pose proof (B (iv_in_game_order ivs 1) 0).
    pose proof (B (iv_in_game_order ivs 2) 0). pose proof (B (iv_in_game_order ivs 3) 0).
    pose proof (B (iv_in_game_order ivs 4) 0). pose proof (B (iv_in_game_order ivs 5) 0). lia.
Qed.

(** Hidden power. *)
Lemma iv_bits_lt ivs b : iv_bits ivs b < 64.
Proof.
  assert (B : forall x k, bit x k <= 1) by (intros; unfold bit; destruct (N.testbit x k); cbn; lia).
  unfold iv_bits.
  pose proof (B (iv_in_game_order ivs 0) b). pose proof (B (iv_in_game_order ivs 1) b).
  pose proof (B (iv_in_game_order ivs 2) b). pose proof (B (iv_in_game_order ivs 3) b).
  pose proof (B (iv_in_game_order ivs 4) b). pose proof (B (iv_in_game_order ivs 5) b). lia.
Qed.
Lemma hidden_power_lt ivs : hidden_power_type ivs < 16.
Proof.
  unfold hidden_power_type. pose proof (iv_bits_lt ivs 0).
  apply N.div_lt_upper_bound; [discriminate|]. lia.
Qed.
Lemma power_range ivs : 30 <= hidden_power_power ivs <= 70.
Proof.
  unfold hidden_power_power. pose proof (iv_bits_lt ivs 1). split; [lia|].
  assert (iv_bits ivs 1 * 40 / 63 < 41) by (apply N.div_lt_upper_bound; [discriminate|lia]). lia.
Qed.

Definition strength_check (v : N) : bool :=
  match strength_attr Numba v with
  | AInt n => n =? 30 + v * 40 / 63
  | _ => false
  end && (Z.to_N (f_trunc (strength_float v)) =? 30 + v * 40 / 63).
Lemma strength_ok v : v < 64 ->
  strength_attr Numba v = AInt (30 + v * 40 / 63) /\
  Z.to_N (f_trunc (strength_float v)) = 30 + v * 40 / 63.
Proof.
  intros H.
  assert (E : all_below 6 0 strength_check = true) by now vm_compute.
  pose proof (all_below_0 6 _ E v H) as K. unfold strength_check in K.
  apply andb_prop in K. destruct K as [K1 K2]. split.
  - destruct (strength_attr Numba v); [|discriminate]. apply N.eqb_eq in K1. now subst.
  - now apply N.eqb_eq.
Qed.
