(** The line of a state is the one of [Spec/TextSpec.v]. *)
From Coq Require Import NArith ZArith Ascii String List Bool Lia SpecFloat Decimal DecimalString DecimalPos DecimalN DecimalFacts.
From Verif Require Import Base.Word Model.Util Model.TextData Model.Names Model.Gen3State Model.Gen3Area Model.Gen3Wild Model.Gen3Csv
  Spec.Gen3Spec Spec.Gen3WildSpec Spec.UtilSpec Spec.TextSpec Proofs.UtilProofs Proofs.Gen3WildProofs Proofs.Gen3Generate Proofs.Gen3Props Proofs.CsvProofs.
Import ListNotations.
Open Scope string_scope.
Open Scope list_scope.
Open Scope N_scope.

Lemma value_acc d : forall acc, decimal_value_from (Npos acc) (NilEmpty.string_of_uint d) = Some (Npos (Pos.of_uint_acc d acc)).
Proof.
  induction d; intros acc; [reflexivity| | | | | | | | | |]; cbn [NilEmpty.string_of_uint Pos.of_uint_acc decimal_value_from];
    rewrite <- IHd; (* one digit *)
    match goal with |- context [N_of_ascii ?c] => let v := eval vm_compute in (N_of_ascii c) in change (N_of_ascii c) with v end;
    cbv iota beta zeta; match goal with |- (if ?b then _ else _) = _ => change b with true end; cbv iota;
    apply (f_equal (fun a => decimal_value_from a _)); lia.
Qed.
Lemma value_uint d : decimal_value_from 0 (NilEmpty.string_of_uint d) = Some (Pos.of_uint d).
Proof.
  induction d; [reflexivity|exact IHd| | | | | | | | |]; exact (value_acc d _).
Qed.
Lemma show_numeral n : numeral (show n) n.
Proof.
  assert (S : show n = NilEmpty.string_of_uint (N.to_uint n)).
  { unfold show, NilZero.string_of_uint. pose proof (to_uint_nonnil n). destruct (N.to_uint n); [contradiction|reflexivity..]. }
  split; [|split].
  - rewrite S, value_uint. f_equal. exact (DecimalN.Unsigned.of_to n).
  - destruct (show_cons n) as (c & s & ->). discriminate.
  - intros t E. rewrite S in E. pose proof (DecimalN.Unsigned.to_of (N.to_uint n)) as U.
    rewrite DecimalN.Unsigned.of_to in U. destruct (N.to_uint n) as [|d|d|d|d|d|d|d|d|d|d] eqn:F; try discriminate E.
    injection E as <-. destruct d; [reflexivity|..]; exfalso; unfold unorm in U; cbn [nzhead] in U;
      try discriminate U;
      match type of U with context [nzhead ?x] => pose proof (nzhead_nonzero x) as Z; destruct (nzhead x); try discriminate U; eapply Z; reflexivity end.
Qed.

Lemma six_spec l s : length l = 6%nat -> six l = Ok s ->
  exists ts, Forall2 numeral ts l /\ s = String.concat "/" ts.
Proof.
  intros L H. apply six_inv in H as (a & b & c & d & e & f & r & -> & ->).
  destruct r; [|discriminate L]. exists (map show [a; b; c; d; e; f]). split.
  - repeat constructor; apply show_numeral.
  - reflexivity.
Qed.

Lemma line_format float m st line power :
  g_pid st < 2^32 -> length (g_ivs st) = 6%nat -> length (g_stats st) = 6%nat ->
  g_hidden_power st < 16 -> g_hidden_power_strength st = AInt power ->
  str float m st = Ok line -> line_of st power line.
Proof.
  intros Hp Hi Hs Hh Hw H. unfold str in H. destruct (csv float m st) as [rows|] eqn:C; [|discriminate H].
  cbn [rmap] in H. unfold csv in C. open C. open C. open C. open C. open C. open C. open C. open C.
  injection C as <-.
  apply look_nth in E, E1, E2, E5, E6.
  destruct (hex_32_ok m _ Hp) as (x & X & XL & XV). rewrite X in E0. injection E0 as <-.
  apply (six_spec _ _ Hi) in E3 as (ivs & I & ->). apply (six_spec _ _ Hs) in E4 as (stats & T & ->).
  rewrite Hw in H. cbn [show_attr] in H.
  exists (show (g_advance st)), v, (if (g_form st =? 0)%N then "" else "-" ++ show (g_form st))%string,
    (show (g_level st)), x, v1, v2, (show (g_ability st)), ivs, stats, v5, (show power), v6.
  repeat split; try apply show_numeral; try assumption.
  - destruct (N.eqb_spec (g_form st) 0); [left; auto|right]. split; [lia|]. eexists. split; [apply show_numeral|reflexivity].
  - rewrite N2Nat.inj_add in E5. change (N.to_nat 1) with 1%nat in E5. rewrite Nat.add_1_r in E5. cbn [TYPES_EN nth_error] in E5.
    assert (L : (N.to_nat (g_hidden_power st) < 16)%nat) by lia. revert L E5. generalize (N.to_nat (g_hidden_power st)). intros k L E5.
    do 16 (destruct k as [|k]; [exact E5|]). lia.
  - assert (G : g_gender st < 3).
    { assert (nth_error GENDER_SYMBOLS (N.to_nat (g_gender st)) <> None) by congruence.
      apply nth_error_Some in H0. cbn in H0. lia. }
    assert (C : g_gender st = 0 \/ g_gender st = 1 \/ g_gender st = 2) by lia.
    destruct C as [C|[C|C]]; rewrite C in *; injection E6 as <-; cbn; auto.
  - apply (f_equal (fun r => match r with Ok s => s | Raise _ => "" end)) in H. cbv beta iota in H. rewrite <- H.
    assert (J : forall s t, s = (t ++ ", ")%string -> substring 0 (String.length s - 2) s = t) by (intros s t ->; apply cut_ends).
    cbv zeta. apply J. rewrite !join_cons. cbn [fst snd]. change (join_rows []) with "". rewrite !append_assoc.
    cbn [append]. rewrite ?append_assoc. cbn [append]. rewrite ?append_assoc. cbn [append]. reflexivity.
Qed.

Lemma hidden_power_lt_16 ivs : hidden_power_type ivs < 16.
Proof.
  unfold hidden_power_type. pose proof (iv_bits_lt ivs 0). apply N.div_lt_upper_bound; lia.
Qed.
Lemma generated_line float fuel junk g seed delay initial max area l :
  length junk = 6%nat -> setting_ok g area ->
  (length (w_table g) <= 1011)%nat -> names_abilities (w_table g) ->
  seed < 2^32 -> initial + delay < 2^32 -> initial + max <= 2^32 ->
  wild_generate fuel junk g seed delay initial max area = Ok l ->
  Forall (fun st => exists rows line, csv float Numba st = Ok rows /\ map fst rows = headings /\
    str float Numba st = Ok line /\ line_of st (hidden_power_power (g_ivs st)) line) l.
Proof.
  intros Hj Hset Ht Ha Hs Hd Hm H. apply Forall_forall. intros st Hin.
  pose proof (generated_text float _ _ _ _ _ _ _ _ _ Hj Hset Ht Ha Hs Hd Hm H) as T. rewrite Forall_forall in T.
  destruct (T st Hin) as (rows & line & R & D & L). exists rows, line. split; [exact R|]. split; [exact D|]. split; [exact L|].
  pose proof (generate_coherent _ _ _ _ _ _ _ _ _ Hj Hset Hs Hd Hm H) as C.
  rewrite Forall_forall in C. destruct (C st Hin) as (sl & info & _ & C2 & _ & _ & C5 & C6 & _ & C8 & C9 & _ & _ & C12 & _ & _ & C15 & C16).
  assert (Hst : length (g_stats st) = 6%nat).
  { apply In_nth_error in Hin. destruct Hin as (i & Hi). rewrite <- (Nat2N.id i) in Hi.
    destruct (generate_states _ _ _ _ _ _ _ _ _ Hj Hset Hs Hd Hm H (N.of_nat i) st Hi)
      as (mods & d & _ & _ & _ & _ & ->). reflexivity. }
  apply (line_format float Numba); try assumption. rewrite C15. apply hidden_power_lt_16.
Qed.
