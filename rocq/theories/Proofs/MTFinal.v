(** The Mersenne Twister statements, assembled. *)
From Coq Require Import NArith ZArith List Bool Lia.
From Coq Require Import ZifyBool ZifyNat ZifyN.
From Verif Require Import Base.Word Base.WordLemmas Model.MT Spec.MTSpec Spec.MTHistory Proofs.MTProofs.
Import ListNotations.
Open Scope N_scope.

Local Notation M32 := 4294967296.

Lemma MT19937_mod seed x : MT19937 seed x -> MT19937 (w32 seed) x.
Proof.
  intros H. split; [|apply H|apply H].
  rewrite (mt19937_first _ _ H). symmetry. apply N.mod_mod. lia.
Qed.

Lemma new_at_word x junk seed : MT19937 seed x -> length junk = 624%nat ->
  at_word x (mt_new junk seed) 624.
Proof. intros Hx Hl. now apply re_init_at_word. Qed.

(** ** history *)
Lemma history_aux m x : (forall s, MT19937 s (x s)) ->
  forall ops self seed pos, Forall (mt_op_valid m) ops ->
    at_word (x seed) self (624 + pos) ->
    snd (mt_calls m self ops) = mt_abs_run x (seed, pos) ops.
Proof.
  intros Hx ops. induction ops as [|op ops IH]; intros self seed pos Hv Ha; [reflexivity|].
  inversion Hv as [|? ? Hop Hv']; subst.
  pose proof (mt19937_rec _ _ (Hx seed)) as Hr.
  cbn [mt_calls mt_abs_run].
  destruct (next_at_word _ Hr self _ Ha) as [Hn1 Hn2].
  replace (S (624 + pos)) with (624 + S pos)%nat in Hn1 by lia.
  assert (Hlt : snd (mt_next self) < M32)
    by (rewrite Hn2; apply temper_lt, (mt19937_lt _ _ (Hx seed))).
  change (mt19937_temper (x seed (624 + pos)%nat)) with (mt19937_output (x seed) pos) in Hn2.
  destruct op as [|n|mx|mx|s|]; cbn [mt_call mt_abs mt_op_valid] in *.
  - destruct (mt_next self) as [s' r]; cbn [fst snd] in *. subst r.
    specialize (IH s' seed (S pos) Hv' Hn1).
    destruct (mt_calls m s' ops); cbn [snd] in *. now f_equal.
  - destruct (advance_at_word _ Hr m self _ n Ha) as (s' & E & Ha'). rewrite E.
    specialize (IH s' seed (pos + N.to_nat n)%nat Hv').
    assert (Ha2 : at_word (x seed) s' (624 + (pos + N.to_nat n))).
    { destruct Ha as (b & _ & Hi & Hp). eapply eq_ind; [exact Ha'|].
      unfold adv_sum. change (2^32) with M32 in Hop.
      destruct m; rewrite ?(N.mod_small n) by lia; rewrite ?N.mod_small by lia; lia. }
    specialize (IH Ha2). destruct (mt_calls m s' ops); cbn [snd] in *. now f_equal.
  - unfold mt_next_rand. destruct (mt_next self) as [s' r]; cbn [fst snd] in *.
    change (2^32) with M32 in *.
    specialize (IH s' seed (S pos) Hv' Hn1).
    destruct (mt_calls m s' ops); cbn [snd] in *. f_equal; [|assumption].
    f_equal. rewrite <- Hn2. rewrite (w64_small mx) by lia.
    rewrite w64_small by nia. rewrite N.shiftr_div_pow2. change (2^32) with M32.
    apply w32_small. apply N.div_lt_upper_bound; nia.
  - unfold mt_next_rand_mod. destruct (mt_next self) as [s' r]; cbn [fst snd] in *.
    change (2^32) with M32 in *.
    specialize (IH s' seed (S pos) Hv' Hn1).
    destruct (mt_calls m s' ops); cbn [snd] in *. f_equal; [|assumption].
    rewrite w32_small by lia. unfold umod. destruct (N.eqb_spec mx 0); [lia|].
    cbn [of_res]. now rewrite Hn2.
  - specialize (IH (mt_re_init self s) s 0%nat Hv').
    assert (Ha2 : at_word (x s) (mt_re_init self s) (624 + 0))
      by (apply re_init_at_word; [apply Hx|eapply at_word_length; exact Ha]).
    specialize (IH Ha2). destruct (mt_calls m (mt_re_init self s) ops); cbn [snd] in *. now f_equal.
  - contradiction.
Qed.

Lemma mt_history m x junk seed ops : (forall s, MT19937 s (x s)) ->
  length junk = 624%nat -> Forall (mt_op_valid m) ops ->
  snd (mt_calls m (mt_new junk seed) ops) = mt_abs_run x (seed, 0%nat) ops.
Proof.
  intros Hx Hl Hv. apply history_aux; auto. now apply new_at_word.
Qed.

Lemma mt_history_exists : exists x, forall s, MT19937 s (x s).
Proof. exists mt19937_seq. apply mt19937_exists. Qed.

Lemma outputs_at x (Hr : linear_rec x) m k : forall self p, at_word x self p ->
  snd (mt_calls m self (repeat MNext k)) = map (fun i => OVal (mt19937_temper (x (p + i)%nat))) (seq 0 k).
Proof.
  induction k as [|k IH]; intros self p Ha; [reflexivity|].
  cbn [repeat mt_calls mt_call]. destruct (next_at_word _ Hr self _ Ha) as [H1 H2].
  destruct (mt_next self) as [s' r]; cbn [fst snd] in *. specialize (IH s' (S p) H1).
  destruct (mt_calls m s' (repeat MNext k)); cbn [snd] in *. rewrite IH.
  cbn [seq map]. rewrite <- seq_shift, map_map. f_equal.
  - rewrite H2. do 3 f_equal. lia.
  - apply map_ext. intros i. do 3 f_equal. lia.
Qed.

Lemma mt_outputs m x junk seed k : MT19937 seed x -> length junk = 624%nat ->
  snd (mt_calls m (mt_new junk seed) (repeat MNext k))
  = map (fun i => OVal (mt19937_output x i)) (seq 0 k).
Proof.
  intros Hx Hl. rewrite (outputs_at x (mt19937_rec _ _ Hx) m k _ _ (new_at_word _ _ _ Hx Hl)).
  reflexivity.
Qed.

(** ** reachable objects *)
Definition Inv (self : mt) : Prop := exists seed p, at_word (mt19937_seq seed) self p.

Lemma call_inv m self op : Inv self -> Inv (fst (mt_call m self op)).
Proof.
  intros (seed & p & Ha). pose proof (mt19937_rec _ _ (mt19937_exists seed)) as Hr.
  pose proof (next_at_word _ Hr self _ Ha) as [H1 _].
  destruct op; cbn [mt_call].
  - destruct (mt_next self); cbn [fst] in *. now exists seed, (S p).
  - destruct (advance_at_word _ Hr m self _ adv Ha) as (s' & -> & Ha'). cbn [fst].
    eexists _, _; exact Ha'.
  - unfold mt_next_rand. destruct (mt_next self); cbn [fst] in *. now exists seed, (S p).
  - unfold mt_next_rand_mod. destruct (mt_next self); cbn [fst] in *. now exists seed, (S p).
  - cbn [fst]. exists seed0, 624%nat. apply re_init_at_word; [apply mt19937_exists|].
    eapply at_word_length; exact Ha.
  - cbn [fst]. eexists _, _. eapply shuffle_at_word; [exact Hr|exact Ha].
Qed.

Lemma calls_inv m ops : forall self, Inv self -> Inv (fst (mt_calls m self ops)).
Proof.
  induction ops as [|op ops IH]; intros self H; [exact H|]. cbn [mt_calls].
  pose proof (call_inv m self op H) as H'. destruct (mt_call m self op) as [s' o].
  specialize (IH s' H'). now destruct (mt_calls m s' ops).
Qed.

Lemma reached_inv m self : mt_reached m self -> Inv self.
Proof.
  intros (junk & seed & ops & Hl & ->). apply calls_inv.
  exists seed, 624%nat. apply new_at_word; [apply mt19937_exists|assumption].
Qed.

(** ** advance *)

Lemma iter_next_at_word x (Hr : linear_rec x) n self p : at_word x self p ->
  at_word x (N.iter n next_state self) (p + N.to_nat n).
Proof.
  intros Ha. induction n as [|n IH] using N.peano_ind; [now rewrite Nat.add_0_r|].
  rewrite N.iter_succ. destruct (next_at_word _ Hr _ _ IH) as [H _].
  replace (p + N.to_nat (N.succ n))%nat with (S (p + N.to_nat n)) by lia. exact H.
Qed.

Lemma mt_advance_skips m self n : mt_reached m self -> n < 2^32 ->
  (m = NumPy -> n + mt_index self < 2^32) ->
  exists self', mt_advance m self n = Ok self' /\
    forall k, snd (mt_calls m self' (repeat MNext k))
              = snd (mt_calls m (N.iter n next_state self) (repeat MNext k)).
Proof.
  intros Hre Hn Hw. apply reached_inv in Hre as (seed & p & Ha).
  pose proof (mt19937_rec _ _ (mt19937_exists seed)) as Hr.
  destruct (advance_at_word _ Hr m self _ n Ha) as (s' & E & Ha'). exists s'. split; [exact E|].
  intros k. change (2^32) with M32 in *.
  assert (Ea : adv_sum m n (mt_index self) = n + mt_index self).
  { unfold adv_sum. rewrite (N.mod_small n) by assumption.
    destruct m; [|reflexivity]. apply N.mod_small. auto. }
  rewrite Ea in Ha'.
  pose proof Ha as (b & _ & Hi & Hp).
  replace (p - N.to_nat (mt_index self) + N.to_nat (n + mt_index self))%nat
    with (p + N.to_nat n)%nat in Ha' by lia.
  rewrite (outputs_at _ Hr m k _ _ Ha').
  rewrite (outputs_at _ Hr m k _ _ (iter_next_at_word _ Hr n _ _ Ha)). reflexivity.
Qed.

Lemma pow2_32_nat : exists k, N.to_nat M32 = (2 ^ k)%nat.
Proof. exists (N.to_nat 32). exact (N2Nat.inj_pow 2 32). Qed.

Lemma mt_advance_wraps self n : mt_reached NumPy self -> n < 2^32 ->
  2^32 <= n + mt_index self ->
  exists self' k, mt_advance NumPy self n = Ok self' /\
    snd (mt_calls NumPy self' (repeat MNext k))
    <> snd (mt_calls NumPy (N.iter n next_state self) (repeat MNext k)).
Proof.
  intros Hre Hn Hw. apply reached_inv in Hre as (seed & p & Ha).
  pose proof (mt19937_rec _ _ (mt19937_exists seed)) as Hr.
  destruct (advance_at_word _ Hr NumPy self _ n Ha) as (s' & E & Ha'). exists s'.
  change (2^32) with M32 in *.
  pose proof Ha as (b & _ & Hi & Hp).
  assert (Ea : adv_sum NumPy n (mt_index self) = n + mt_index self - M32).
  { unfold adv_sum. rewrite (N.mod_small n) by assumption. lia. }
  rewrite Ea in Ha'. set (q := (p - _ + _)%nat) in Ha'.
  destruct pow2_32_nat as (e & He). set (K := N.to_nat M32) in *.
  assert (Hq : (p + N.to_nat n = q + K)%nat) by (unfold q, K; lia).
  pose proof (iter_next_at_word _ Hr n _ _ Ha) as Hb. rewrite Hq in Hb.
  clearbody q K. clear - E Ha' Hb Hr He.
  (* if all prefixes agreed the sequence would have period 2^32 *)
  assert (Dec : forall k, {snd (mt_calls NumPy s' (repeat MNext k))
     = snd (mt_calls NumPy (N.iter n next_state self) (repeat MNext k))} + {
     snd (mt_calls NumPy s' (repeat MNext k))
     <> snd (mt_calls NumPy (N.iter n next_state self) (repeat MNext k))}).
  { intros k. apply list_eq_dec. decide equality; [apply N.eq_dec|decide equality]. }
  (* 624 equal outputs determine the rest *)
  destruct (Dec 624%nat) as [E624|]; [exfalso|now exists 624%nat].
  rewrite (outputs_at _ Hr _ _ _ _ Ha'), (outputs_at _ Hr _ _ _ _ Hb) in E624.
  assert (H624 : forall i, (i < 624)%nat ->
            mt19937_seq seed (q + i)%nat = mt19937_seq seed (q + K + i)%nat).
  { intros i Hi. apply temper_inj.
    apply (f_equal (fun l => nth i l ONone)) in E624.
    rewrite !(nth_indep _ ONone (OVal (mt19937_temper (mt19937_seq seed (q + 0)%nat)))) in E624
      by (rewrite map_length, seq_length; assumption).
    rewrite (map_nth (fun i => OVal (mt19937_temper (mt19937_seq seed (q + i)%nat))) (seq 0 624) 0%nat) in E624.
    rewrite seq_nth in E624 by assumption.
    rewrite (nth_indep _ _ (OVal (mt19937_temper (mt19937_seq seed (q + K + 0)%nat)))) in E624
      by (rewrite map_length, seq_length; assumption).
    rewrite (map_nth (fun i => OVal (mt19937_temper (mt19937_seq seed (q + K + i)%nat))) (seq 0 624) 0%nat) in E624.
    rewrite seq_nth in E624 by assumption. now inversion E624. }
  apply (mt_no_pow2_period seed _ e q (mt19937_exists seed)); rewrite <- He.
  intros i. induction i as [i IH] using (well_founded_induction lt_wf).
  destruct (Nat.lt_ge_cases i 624) as [Hi|Hi].
  - rewrite H624 by assumption. f_equal. lia.
  - pose proof (Hr (q + (i - 624))%nat) as H1. pose proof (Hr (q + (i - 624) + K)%nat) as H2.
    replace (q + i + K)%nat with (q + (i - 624) + K + 624)%nat by lia.
    replace (q + i)%nat with (q + (i - 624) + 624)%nat by lia. rewrite H1, H2.
    replace (q + (i - 624) + K + 397)%nat with (q + (i - 227) + K)%nat by lia.
    replace (q + (i - 624) + K + 1)%nat with (q + (i - 623) + K)%nat by lia.
    replace (q + (i - 624) + 397)%nat with (q + (i - 227))%nat by lia.
    replace (q + (i - 624) + 1)%nat with (q + (i - 623))%nat by lia.
    rewrite !IH by lia. reflexivity.
Qed.

(** ** re_init *)
Lemma holds_unique x st st' b : holds x st b -> holds x st' b -> st = st'.
Proof.
  intros [L H] [L' H']. apply list_eq_aget; [congruence|].
  intros i Hi. rewrite H, H' by lia. reflexivity.
Qed.
Lemma re_init_index self seed : mt_index (mt_re_init self seed) = 624.
Proof. unfold mt_re_init. now destruct (for_range _ _ _ _). Qed.

Lemma mt_re_init_fresh m self junk seed : mt_reached m self -> length junk = 624%nat ->
  mt_re_init self seed = mt_new junk seed.
Proof.
  intros Hre Hl. apply reached_inv in Hre as (s & p & Ha). apply at_word_length in Ha.
  destruct (re_init_at_word _ self seed (mt19937_exists seed) Ha) as (b & H1 & _ & H3).
  destruct (new_at_word _ junk seed (mt19937_exists seed) Hl) as (b' & H1' & _ & H3').
  unfold mt_new in *. rewrite !re_init_index in *.
  assert (b = b') by lia. subst b'.
  destruct (mt_re_init self seed) as [s1 i1] eqn:E1, (mt_re_init (mkMT junk 624) seed) as [s2 i2] eqn:E2.
  pose proof (re_init_index self seed) as I1. pose proof (re_init_index (mkMT junk 624) seed) as I2.
  rewrite E1 in I1. rewrite E2 in I2. cbn [mt_state mt_index] in *.
  f_equal; [eapply holds_unique; eassumption|congruence].
Qed.

(** ** bounds *)
Lemma mt_word_r_ok st i j k : (i < length st)%nat -> (j < length st)%nat -> (k < length st)%nat ->
  mt_word_r st i j k = Ok (mt_word st i j k).
Proof. intros Hi Hj Hk. unfold mt_word_r. now rewrite !agetr_ok by assumption. Qed.

Lemma mt_shuffle_r_ok self : length (mt_state self) = 624%nat -> mt_shuffle_r self = Ok (mt_shuffle self).
Proof.
  intros Hl. unfold mt_shuffle_r, mt_shuffle, mt_shuffle_state.
  destruct (for_range_r_ok (fun st => length st = 624%nat)
     (fun i st => rbind (mt_word_r st i (i + 1) (i + 397)) (asetr st i))
     (fun i st => aset st i (mt_word st i (i + 1) (i + 397))) 227 0 (mt_state self) Hl) as [E1 L1].
  { intros i s Hi Hs. rewrite mt_word_r_ok by lia. cbn [rbind]. rewrite asetr_ok by lia.
    rewrite aset_length. auto. }
  rewrite E1. cbn [rbind].
  destruct (for_range_r_ok (fun st => length st = 624%nat)
     (fun i st => rbind (mt_word_r st i (i + 1) (i - 227)) (asetr st i))
     (fun i st => aset st i (mt_word st i (i + 1) (i - 227))) 396 227 _ L1) as [E2 L2].
  { intros i s Hi Hs. rewrite mt_word_r_ok by lia. cbn [rbind]. rewrite asetr_ok by lia.
    rewrite aset_length. auto. }
  rewrite E2. cbn [rbind]. rewrite mt_word_r_ok by (rewrite L2; lia). cbn [rbind].
  rewrite asetr_ok by (rewrite L2; lia). reflexivity.
Qed.

Lemma mt_in_bounds m self : mt_reached m self ->
  length (mt_state self) = 624%nat /\ mt_index self <= 624 /\
  Forall (fun w => w < 2^32) (mt_state self) /\
  mt_shuffle_r self = Ok (mt_shuffle self) /\
  mt_next_r self = Ok (mt_next self).
Proof.
  intros Hre. apply reached_inv in Hre as (s & p & b & [Hl Hh] & Hi & Hp).
  split; [assumption|]. split; [assumption|]. split; [|split].
  - apply Forall_forall. intros w Hw. apply (In_nth _ _ 0) in Hw as (j & Hj & <-).
    change (nth j (mt_state self) 0) with (aget (mt_state self) j). rewrite Hh by lia.
    apply (mt19937_lt _ _ (mt19937_exists s)).
  - now apply mt_shuffle_r_ok.
  - unfold mt_next_r, mt_next. rewrite mt_shuffle_r_ok by assumption.
    destruct (N.eqb_spec (mt_index self) 624); cbn [rbind].
    + rewrite agetr_ok; [reflexivity|]. cbn [mt_shuffle mt_state mt_index].
      pose proof (shuffle_holds _ (mt19937_rec _ _ (mt19937_exists s)) b _ (conj Hl Hh)) as [L _].
      rewrite L. cbn. lia.
    + rewrite agetr_ok by lia. reflexivity.
Qed.

(** ** bounded rands, any object state *)
Lemma mt_next_rand_range self maximum : mt_reached NumPy self \/ mt_reached Numba self ->
  1 <= maximum <= 2^32 ->
  mt_next_rand self maximum
    = (fst (mt_next self), snd (mt_next self) * maximum / 2^32) /\
  snd (mt_next_rand self maximum) < maximum.
Proof.
  intros Hre Hm. change (2^32) with M32 in *.
  assert (Hlt : snd (mt_next self) < M32).
  { assert (Inv self) as (seed & p & Ha) by (destruct Hre as [H|H]; eapply reached_inv; exact H).
    destruct (next_at_word _ (mt19937_rec _ _ (mt19937_exists seed)) _ _ Ha) as [_ ->].
    apply temper_lt, (mt19937_lt _ _ (mt19937_exists seed)). }
  unfold mt_next_rand. destruct (mt_next self) as [s' r]. cbn [fst snd] in *.
  rewrite (w64_small maximum) by lia. rewrite w64_small by nia.
  rewrite N.shiftr_div_pow2. change (2^32) with M32.
  assert (r * maximum / M32 < maximum) by (apply N.div_lt_upper_bound; nia).
  rewrite w32_small by lia. auto.
Qed.

Lemma mt_next_rand_mod_range m self maximum : 1 <= maximum < 2^32 ->
  mt_next_rand_mod m self maximum
    = (fst (mt_next self), Ok (snd (mt_next self) mod maximum)) /\
  snd (mt_next self) mod maximum < maximum.
Proof.
  intros Hm. change (2^32) with M32 in *. unfold mt_next_rand_mod.
  destruct (mt_next self) as [s' r]. cbn [fst snd].
  rewrite w32_small by lia. unfold umod. destruct (N.eqb_spec maximum 0); [lia|].
  split; [reflexivity|]. apply N.mod_lt. lia.
Qed.

Lemma mt19937_ex_unique seed :
  exists x, MT19937 seed x /\ forall y, MT19937 seed y -> forall i, y i = x i.
Proof.
  exists (mt19937_seq seed). split; [apply mt19937_exists|].
  intros y Hy. apply (mt19937_unique seed); [assumption|apply mt19937_exists].
Qed.

Lemma mt_re_init_same_future m self junk seed :
  mt_reached m self -> length junk = 624%nat ->
  mt_re_init self seed = mt_new junk seed /\
  forall m' ops, snd (mt_calls m' (mt_re_init self seed) ops) = snd (mt_calls m' (mt_new junk seed) ops).
Proof.
  intros H Hl. pose proof (mt_re_init_fresh m self junk seed H Hl) as E.
  split; [exact E|]. intros. now rewrite E.
Qed.
