(** Stats grow with the level, the base stats and the IVs. *)
From Coq Require Import NArith ZArith List Bool Arith Lia.
From Verif Require Import Base.Word Base.WordLemmas Model.Gen3State Spec.Gen3Spec Spec.Gen3WildSpec Spec.GrowSpec Proofs.Gen3Props.
Import ListNotations.
Open Scope list_scope.
Open Scope N_scope.
Ltac Zify.zify_post_hook ::= idtac.

Lemma modified_le u d v w : v <= w -> modified u d v <= modified u d w.
Proof. intros H. unfold modified. destruct u, d; try exact H; apply N.div_le_mono; lia. Qed.
Lemma nature_le n s v w : v <= w -> nature_stat n s v <= nature_stat n s w.
Proof. intros H. unfold nature_stat. destruct (nth _ _ _). now apply modified_le. Qed.
Lemma core_le b b' v v' l l' : b <= b' -> v <= v' -> l <= l' -> (2 * b + v) * l / 100 <= (2 * b' + v') * l' / 100.
Proof. intros. apply N.div_le_mono; [lia|]. apply N.mul_le_mono; lia. Qed.
Lemma iv_le : forall ivs ivs' i, Forall2 N.le ivs ivs' -> nth i ivs 0 <= nth i ivs' 0.
Proof.
  induction ivs as [|a l IH]; intros ivs' i H; inversion H; subst; destruct i; cbn [nth]; try lia; auto.
Qed.
Lemma code_le pid pid' level level' ivs ivs' info info' :
  pid mod 25 = pid' mod 25 -> level <= level' -> Forall2 N.le ivs ivs' -> base_le info info' ->
  Forall2 N.le (code_stats pid level ivs info) (code_stats pid' level' ivs' info').
Proof.
  intros Hn Hl Hi (B1 & B2 & B3 & B4 & B5 & B6). unfold code_stats. cbv zeta. rewrite Hn.
  assert (R : forall b b' i, b <= b' -> (2 * b + nth i ivs 0) * level / 100 <= (2 * b' + nth i ivs' 0) * level' / 100)
    by (intros; apply core_le; [assumption|apply iv_le, Hi|exact Hl]).
  constructor; [unfold hp_stat; pose proof (R _ _ 0%nat B1); lia|].
  repeat (constructor; [apply nature_le; unfold raw_stat; apply N.add_le_mono_r; apply R; assumption|]). constructor.
Qed.
Lemma stats_grow m junk advance species form ability shiny m' junk' advance' species' form' ability' shiny'
    pid pid' level level' ivs ivs' info info' st st' :
  length junk = 6%nat -> length junk' = 6%nat -> pid < 2^32 -> pid' < 2^32 -> level' < 256 ->
  Forall (fun v => v < 32) ivs' -> info_ok info -> info_ok info' ->
  gstate_new m junk advance pid species form ivs ability level shiny info = Ok st ->
  gstate_new m' junk' advance' pid' species' form' ivs' ability' level' shiny' info' = Ok st' ->
  pid mod 25 = pid' mod 25 -> level <= level' -> Forall2 N.le ivs ivs' -> base_le info info' ->
  Forall2 N.le (g_stats st) (g_stats st').
Proof.
  intros L L' P P' H' V' I I' E E' Hn Hl Hi Hb.
  assert (V : Forall (fun v => v < 32) ivs).
  { clear - V' Hi. induction Hi; constructor; inversion V'; subst; [lia|auto]. }
  rewrite (new_stats _ _ _ _ _ _ _ _ _ _ _ _ L P (N.le_lt_trans _ _ _ Hl H') V I E).
  rewrite (new_stats _ _ _ _ _ _ _ _ _ _ _ _ L' P' H' V' I' E'). apply code_le; assumption.
Qed.

(** At level 100. *)
Definition stat_at (i : nat) : stat := nth (i - 1) [Atk; Def; Spe; SpA; SpD] Atk.
Lemma nature_columns n i v : n < 25 -> (1 <= i <= 5)%nat ->
  nature_stat n (stat_at i) v = modified (n / 5 + 1 =? N.of_nat i) (n mod 5 + 1 =? N.of_nat i) v.
Proof.
  intros Hn Hi. unfold nature_stat.
  assert (C : In n [0;1;2;3;4;5;6;7;8;9;10;11;12;13;14;15;16;17;18;19;20;21;22;23;24]).
  { cbn [In]. lia. }
  assert (D : In i [1;2;3;4;5]%nat) by (cbn [In]; lia).
  cbn [In] in C, D.
  decompose [or] C; try contradiction; subst n; decompose [or] D; try contradiction; subst i; reflexivity.
Qed.
Definition base_at (info : personal3) (i : nat) : N :=
  nth i [pi_hp info; pi_attack info; pi_defense info; pi_special_attack info; pi_special_defense info; pi_speed info] 0.
Lemma code_at pid ivs info i : (1 <= i <= 5)%nat ->
  nth i (code_stats pid 100 ivs info) 0 =
  modified (pid mod 25 / 5 + 1 =? N.of_nat i) (pid mod 25 mod 5 + 1 =? N.of_nat i) (2 * base_at info i + nth i ivs 0 + 5).
Proof.
  intros Hi. assert (R : forall b v, raw_stat b v 100 = 2 * b + v + 5) by (intros; unfold raw_stat; rewrite N.div_mul by lia; reflexivity).
  assert (Hn : pid mod 25 < 25) by (apply N.mod_lt; lia).
  rewrite <- (nature_columns _ i _ Hn Hi). unfold code_stats. cbv zeta. rewrite !R.
  assert (D : In i [1;2;3;4;5]%nat) by (cbn [In]; lia). cbn [In] in D.
  decompose [or] D; try contradiction; subst i; reflexivity.
Qed.
Lemma div11 a b : a * 11 / 10 = b * 11 / 10 -> a = b.
Proof.
  intros H. pose proof (N.div_mod (a * 11) 10 ltac:(lia)) as A. pose proof (N.div_mod (b * 11) 10 ltac:(lia)) as B.
  pose proof (N.mod_lt (a * 11) 10 ltac:(lia)). pose proof (N.mod_lt (b * 11) 10 ltac:(lia)). rewrite H in A. lia.
Qed.
Lemma div9 a b : a * 9 / 10 = b * 9 / 10 -> a <= b + 1 /\ b <= a + 1.
Proof.
  intros H. pose proof (N.div_mod (a * 9) 10 ltac:(lia)) as A. pose proof (N.div_mod (b * 9) 10 ltac:(lia)) as B.
  pose proof (N.mod_lt (a * 9) 10 ltac:(lia)). pose proof (N.mod_lt (b * 9) 10 ltac:(lia)). rewrite H in A. lia.
Qed.
Lemma stats_tell_ivs m junk advance species form ability shiny m' junk' advance' species' form' ability' shiny'
    pid pid' ivs ivs' info st st' i :
  length junk = 6%nat -> length junk' = 6%nat -> pid < 2^32 -> pid' < 2^32 ->
  Forall (fun v => v < 32) ivs -> Forall (fun v => v < 32) ivs' -> info_ok info ->
  gstate_new m junk advance pid species form ivs ability 100 shiny info = Ok st ->
  gstate_new m' junk' advance' pid' species' form' ivs' ability' 100 shiny' info = Ok st' ->
  pid mod 25 = pid' mod 25 -> (i < 6)%nat -> nth i (g_stats st) 0 = nth i (g_stats st') 0 ->
  (~ lowered (pid mod 25) i -> nth i ivs 0 = nth i ivs' 0) /\
  (nth i ivs 0 <= nth i ivs' 0 + 1 /\ nth i ivs' 0 <= nth i ivs 0 + 1).
Proof.
  intros L L' P P' V V' I E E' Hn Hi H.
  rewrite (new_stats _ _ _ _ _ _ _ _ _ _ _ _ L P (eq_refl : 100 < 256) V I E) in H.
  rewrite (new_stats _ _ _ _ _ _ _ _ _ _ _ _ L' P' (eq_refl : 100 < 256) V' I E') in H.
  destruct (Nat.eq_dec i 0) as [->|Ni].
  - unfold code_stats in H. cbv zeta in H. revert H. generalize (nth 0 ivs 0), (nth 0 ivs' 0). intros v v' H. cbn [nth] in H. unfold hp_stat in H. rewrite !N.div_mul in H by lia.
    split; [intros _|]; lia.
  - assert (Hi' : (1 <= i <= 5)%nat) by lia. rewrite !code_at in H by exact Hi'. rewrite <- Hn in H. unfold lowered.
    unfold modified in H.
    destruct (N.eqb_spec (pid mod 25 / 5 + 1) (N.of_nat i)) as [U|U], (N.eqb_spec (pid mod 25 mod 5 + 1) (N.of_nat i)) as [D|D].
    + split; [intros _|]; lia.
    + apply div11 in H. split; [intros _|]; lia.
    + apply div9 in H. split; [tauto|lia].
    + split; [intros _|]; lia.
Qed.
