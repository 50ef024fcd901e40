(** The PID search of the generation 3 wild generator. *)
From Coq Require Import NArith ZArith List Bool Lia.
From Verif Require Import Base.Word Base.WordLemmas Model.Lcrng32 Model.LcrngClasses
  Model.Gen3State Model.Gen3Area Model.Gen3Wild Spec.LcrngSpec Spec.Gen3Spec Spec.Gen3WildSpec
  Proofs.LcrngFinal Proofs.Gen3StateProofs Proofs.Gen3AreaProofs Proofs.Gen3Witness.
Import ListNotations.
Ltac Zify.zify_post_hook ::= idtac.
Open Scope N_scope.

(** * Loops *)
Lemma while_ok {S} (cond : S -> bool) (body : S -> S) fuel : forall s j,
  j <= N.of_nat fuel -> cond (N.iter j body s) = false ->
  exists n, n <= j /\ while_loop fuel cond body s = Ok (N.iter n body s) /\
    cond (N.iter n body s) = false /\ forall i, i < n -> cond (N.iter i body s) = true.
Proof.
  induction fuel as [|f IH]; intros s j Hj Hc.
  - assert (j = 0) by lia. subst j. exists 0. split; [lia|].
    cbn [N.iter] in *. cbn [while_loop]. rewrite Hc. repeat split. intros i Hi. lia.
  - cbn [while_loop]. destruct (cond s) eqn:E.
    + assert (j <> 0) by (intros ->; cbn [N.iter] in Hc; congruence).
      destruct (IH (body s) (N.pred j)) as (n & Hn & Hw & Hf & Hm).
      * lia.
      * rewrite <- Niter_succ_r. now rewrite N.succ_pred.
      * exists (N.succ n). split; [lia|]. rewrite Niter_succ_r. repeat split; try assumption.
        intros i Hi. destruct (N.eq_dec i 0) as [->|Hi0]; [exact E|].
        replace i with (N.succ (N.pred i)) by lia. rewrite Niter_succ_r. apply Hm. lia.
    + exists 0. split; [lia|]. cbn [N.iter]. repeat split; [exact E|]. intros i Hi. lia.
Qed.
Lemma while_inv {S} (cond : S -> bool) (body : S -> S) fuel : forall s r,
  while_loop fuel cond body s = Ok r ->
  exists n, r = N.iter n body s /\ cond r = false /\ forall i, i < n -> cond (N.iter i body s) = true.
Proof.
  induction fuel as [|f IH]; intros s r H; cbn [while_loop] in H; destruct (cond s) eqn:E.
  - discriminate.
  - injection H as <-. exists 0. repeat split; [exact E|]. intros i Hi. lia.
  - destruct (IH _ _ H) as (n & Hr & Hc & Hm). exists (N.succ n).
    rewrite Niter_succ_r. repeat split; try assumption.
    intros i Hi. destruct (N.eq_dec i 0) as [->|Hi0]; [exact E|].
    replace i with (N.succ (N.pred i)) by lia. rewrite Niter_succ_r. apply Hm. lia.
  - injection H as <-. exists 0. repeat split; [exact E|]. intros i Hi. lia.
Qed.
Lemma while_forever {S} (cond : S -> bool) (body : S -> S) (inv : S -> Prop) :
  (forall s, inv s -> cond s = true /\ inv (body s)) ->
  forall fuel s, inv s -> while_loop fuel cond body s = Raise OutOfFuel.
Proof.
  intros H. induction fuel as [|f IH]; intros s Hs; cbn [while_loop];
    destruct (H s Hs) as [-> Hi]; [reflexivity|]. now apply IH.
Qed.

(** * PIDs by position *)
Lemma next_pid_steps k s : s < 2^32 ->
  next_pid (steps k s) = (steps (k + 2) s, pid_at (rand_at s) k).
Proof.
  intros Hs. unfold next_pid. rewrite poke_u16_steps by exact Hs.
  rewrite poke_u16_steps by exact Hs. replace (k + 1 + 1) with (k + 2) by lia. f_equal.
  unfold pid_at.
  pose proof (rand_at_lt s (k + 1) Hs). 
  rewrite N.lor_comm, lor_shiftl_add by exact H. change (2^16) with 65536. lia.
Qed.
Lemma pid_at_lt s k : s < 2^32 -> pid_at (rand_at s) k < 2^32.
Proof.
  intros Hs. unfold pid_at.
  pose proof (rand_at_lt s (k + 1) Hs). pose proof (rand_at_lt s (k + 2) Hs).
  change (2^32) with 4294967296. lia.
Qed.
Lemma iter_next_pid j k s : s < 2^32 ->
  N.iter j (fun x => next_pid (fst x)) (next_pid (steps k s)) =
    (steps (k + 2 * j + 2) s, pid_at (rand_at s) (k + 2 * j)).
Proof.
  intros Hs. induction j as [|j IH] using N.peano_ind.
  - cbn [N.iter]. rewrite next_pid_steps by exact Hs. f_equal; f_equal; lia.
  - rewrite Niter_succ, IH. cbn [fst]. rewrite next_pid_steps by exact Hs.
    f_equal; f_equal; lia.
Qed.

(** The loop condition. *)
Lemma rejected_accepts g info nature species form charm pid :
  form < 256 ->
  (pid_rejected g info nature species form charm pid = false <->
   accepts g (pi_gender_ratio info) nature species form charm pid).
Proof.
  intros Hf. unfold pid_rejected, accepts, cute_charm_check.
  rewrite unown_letter_eq. rewrite w8_small by exact Hf.
  change 0xFF with (N.ones 8). rewrite N.land_ones. change (2^8) with 256.
  rewrite !orb_false_iff, negb_false_iff, N.eqb_eq. rewrite !andb_false_iff, !negb_false_iff.
  rewrite N.eqb_eq.
  split.
  - intros [[H1 H2] H3]. split; [exact H1|]. split.
    + intros ->. destruct H2 as [H2|H2]; [discriminate|].
      destruct (w_lead g =? Lead_CUTE_CHARM_F); [now apply N.leb_le|now apply N.ltb_lt].
    + intros ->. destruct H3 as [H3|H3]; [discriminate|exact H3].
  - intros (H1 & H2 & H3). split; [split|].
    + exact H1.
    + destruct charm; [right|left; reflexivity]. specialize (H2 eq_refl).
      destruct (w_lead g =? Lead_CUTE_CHARM_F); [now apply N.leb_le|now apply N.ltb_lt].
    + destruct (N.eqb_spec species 201) as [E|E]; [right; now apply H3|left; reflexivity].
Qed.

(** * Reaching a state of the same parity in an even number of steps *)
Lemma steps_parity k s : N.odd (steps k s) = xorb (N.odd k) (N.odd s).
Proof.
  induction k as [|k IH] using N.peano_ind.
  - unfold steps, lcg_steps. cbn [N.iter]. now destruct (N.odd s).
  - rewrite <- N.add_1_r, <- steps_S. unfold lcg.
    change (2^32) with (2 * 2147483648).
    rewrite N.mod_mul_r by lia.
    rewrite N.odd_add, N.odd_mul.
    change (N.odd 2) with false. cbn [andb].
    assert (E : forall y, N.odd (y mod 2) = N.odd y).
    { intros y. rewrite <- !N.bit0_odd. change 2 with (2^1). now rewrite N.mod_pow2_bits_low by lia. }
    rewrite E. rewrite N.odd_add, N.odd_mul, IH, N.odd_add.
    change (N.odd 0x41C64E6D) with true. change (N.odd 0x6073) with true. change (N.odd 1) with true.
    now destruct (N.odd k), (N.odd s).
Qed.

Lemma reach s t : s < 2^32 -> t < 2^32 -> N.odd s = N.odd t ->
  exists j, j < 2^31 /\ steps (2 * j) s = t.
Proof.
  intros Hs Ht Hp.
  destruct (c05_32 0 PokeRNGMod) as (a & m & Ec & Hfull).
  { cbn; tauto. }
  assert (Ea : (a, m) = (0x6073, 0x41C64E6D)).
  { unfold consts_of32, lcrng32_consts in Ec. cbn [p32_rev PokeRNGMod] in Ec.
    injection Ec as <- <-. reflexivity. }
  injection Ea as -> ->.
  destruct Hfull as [_ Hr]. destruct (Hr s t Hs Ht) as (n & Hn & En & _).
  assert (E : steps n s = t).
  { rewrite <- En. unfold steps, lcg_steps. apply Niter_ext. intros y.
    unfold lcg, lcrng32_next, w32. change (2^32) with 4294967296. f_equal. lia. }
  assert (Hodd : N.odd n = false).
  { pose proof (steps_parity n s) as K. rewrite E in K.
    destruct (N.odd n), (N.odd s), (N.odd t); cbn in *; congruence. }
  exists (N.div2 n). pose proof (N.div2_odd n) as D. rewrite Hodd in D. cbn [N.b2n] in D.
  split.
  - change (2^31) with 2147483648. change (2^32) with 4294967296 in Hn. lia.
  - rewrite <- E. f_equal. lia.
Qed.

(** * Witnesses *)
Definition pid_of (t : N) : N := pid_at (rand_at t) 0.
Definition entry_ok (t n l : N) (odd : bool) (low : N -> bool) : bool :=
  (t <? 2^32) && Bool.eqb (N.odd t) odd && (pid_of t mod 25 =? n)
  && (unown_letter (pid_of t) =? l) && low (pid_of t mod 256).
Definition get_w (w : list (list (N * N))) (n l : nat) : N * N := nth l (nth n w []) (0, 0).
Definition table_ok (w : list (list (N * N))) (count : nat) (lt : nat -> N) (low : N -> bool) : bool :=
  forallb (fun n => forallb (fun l =>
    entry_ok (fst (get_w w n l)) (N.of_nat n) (lt l) false low &&
    entry_ok (snd (get_w w n l)) (N.of_nat n) (lt l) true low) (seq 0 count)) (seq 0 25).
Lemma low_ok : table_ok witness_low 28 N.of_nat (fun b => b <? 254) = true.
Proof. now vm_compute. Qed.
Lemma w254_ok : table_ok witness_254 7 (fun l => 4 * N.of_nat l + 2) (fun b => b =? 254) = true.
Proof. now vm_compute. Qed.
Lemma w255_ok : table_ok witness_255 7 (fun l => 4 * N.of_nat l + 3) (fun b => b =? 255) = true.
Proof. now vm_compute. Qed.

Lemma table_get w count lt low : table_ok w count lt low = true ->
  forall n l (odd : bool), n < 25 -> (l < count)%nat ->
  exists t, t < 2^32 /\ N.odd t = odd /\ pid_of t mod 25 = n /\
    unown_letter (pid_of t) = lt l /\ low (pid_of t mod 256) = true.
Proof.
  intros H n l odd Hn Hl. unfold table_ok in H. rewrite forallb_forall in H.
  specialize (H (N.to_nat n)). rewrite forallb_forall in H by (apply in_seq; lia).
  specialize (H ltac:(apply in_seq; lia) l ltac:(apply in_seq; lia)).
  apply andb_prop in H. destruct H as [H0 H1].
  set (t := if odd then snd (get_w w (N.to_nat n) l) else fst (get_w w (N.to_nat n) l)).
  assert (K : entry_ok t n (lt l) odd low = true).
  { unfold t. rewrite N2Nat.id in H0, H1. destruct odd; assumption. }
  exists t. unfold entry_ok in K. 
  apply andb_prop in K; destruct K as [K K5]. apply andb_prop in K; destruct K as [K K4].
  apply andb_prop in K; destruct K as [K K3]. apply andb_prop in K; destruct K as [K1 K2].
  apply N.ltb_lt in K1. apply N.eqb_eq in K3, K4. apply eqb_prop in K2. auto.
Qed.

Lemma all_classes : forall n form (odd : bool), n < 25 -> form < 28 ->
  (exists t, t < 2^32 /\ N.odd t = odd /\ pid_of t mod 25 = n /\
     unown_letter (pid_of t) = form /\ pid_of t mod 256 < 254) /\
  (form mod 4 = 2 -> exists t, t < 2^32 /\ N.odd t = odd /\ pid_of t mod 25 = n /\
     unown_letter (pid_of t) = form /\ pid_of t mod 256 = 254) /\
  (form mod 4 = 3 -> exists t, t < 2^32 /\ N.odd t = odd /\ pid_of t mod 25 = n /\
     unown_letter (pid_of t) = form /\ pid_of t mod 256 = 255).
Proof.
  intros n form odd Hn Hf. split; [|split].
  - destruct (table_get _ _ _ _ low_ok n (N.to_nat form) odd Hn) as (t & H1 & H2 & H3 & H4 & H5); [lia|].
    exists t. rewrite N2Nat.id in H4. apply N.ltb_lt in H5. auto.
  - intros Hm. assert (Hd : form / 4 < 7) by (apply N.div_lt_upper_bound; lia).
    destruct (table_get _ _ _ _ w254_ok n (N.to_nat (form / 4)) odd Hn) as (t & H1 & H2 & H3 & H4 & H5); [lia|].
    exists t. rewrite N2Nat.id in H4. apply N.eqb_eq in H5.
    pose proof (N.div_mod form 4 ltac:(lia)). repeat split; auto. lia.
  - intros Hm. assert (Hd : form / 4 < 7) by (apply N.div_lt_upper_bound; lia).
    destruct (table_get _ _ _ _ w255_ok n (N.to_nat (form / 4)) odd Hn) as (t & H1 & H2 & H3 & H4 & H5); [lia|].
    exists t. rewrite N2Nat.id in H4. apply N.eqb_eq in H5.
    pose proof (N.div_mod form 4 ltac:(lia)). repeat split; auto. lia.
Qed.

(** Positions in a sequence started later. *)
Lemma steps_add i j s : steps (i + j) s = steps i (steps j s).
Proof. unfold steps, lcg_steps. apply Niter_add. Qed.
Lemma rand_at_steps s j k : rand_at (steps j s) k = rand_at s (j + k).
Proof.
  unfold rand_at. fold (steps k (steps j s)). fold (steps (j + k) s).
  rewrite <- steps_add. now rewrite N.add_comm.
Qed.
Lemma pid_at_shift s j k : pid_at (rand_at (steps j s)) k = pid_at (rand_at s) (j + k).
Proof. unfold pid_at. rewrite !rand_at_steps, !N.add_assoc. reflexivity. Qed.

(** When the conditions can be met at all. *)
Lemma unown_low pid : unown_letter pid mod 4 = pid mod 4.
Proof.
  unfold unown_letter.
  assert (E : forall y, (y mod 28) mod 4 = y mod 4).
  { intros y. change 28 with (4 * 7). rewrite N.mod_mul_r by lia.
    rewrite (N.mul_comm 4), N.mod_add by lia. now rewrite N.mod_mod. }
  rewrite E.
  replace (128 * bit pid 25 + 64 * bit pid 24 + 32 * bit pid 17 + 16 * bit pid 16 + 8 * bit pid 9 + 4 * bit pid 8 + 2 * bit pid 1 + bit pid 0)
    with (2 * bit pid 1 + bit pid 0 + (32 * bit pid 25 + 16 * bit pid 24 + 8 * bit pid 17 + 4 * bit pid 16 + 2 * bit pid 9 + bit pid 8) * 4) by lia.
  rewrite N.mod_add by lia.
  assert (B : pid mod 4 = 2 * bit pid 1 + bit pid 0).
  { change 4 with (2 * 2). rewrite N.mod_mul_r by lia. unfold bit. rewrite !N.testbit_spec'.
    change (2^1) with 2. change (2^0) with 1. rewrite N.div_1_r. lia. }
  rewrite B. apply N.mod_small. unfold bit. destruct (N.testbit pid 1), (N.testbit pid 0); cbn; lia.
Qed.

Section Search.
Variables (g : wildgen) (info : personal3) (nature species form : N) (charm : bool).
Hypothesis Hn : nature < 25.
Hypothesis Hform : form < 32.
Let ratio := pi_gender_ratio info.
(** The charm is only ever active for these ratios (roll_cute_charm). *)
Hypothesis Hratio : charm = true -> ratio = 0 \/ ratio = 254 \/ ratio = 255.

Lemma witness_exists odd : satisfiable (w_lead g) ratio species form charm ->
  exists t, t < 2^32 /\ N.odd t = odd /\ accepts g ratio nature species form charm (pid_of t).
Proof.
  intros (S1 & S2 & S3).
  set (f := if species =? 201 then form else 3).
  assert (Hf : f < 28).
  { unfold f. destruct (N.eqb_spec species 201); [now apply S1|lia]. }
  destruct (all_classes nature f odd Hn Hf) as (C0 & C254 & C255).
  assert (Hu : forall pid, unown_letter pid = f -> species = 201 -> unown_letter pid = form).
  { intros pid Hl E. rewrite Hl. unfold f. now rewrite E. }
  destruct (charm) eqn:Ech.
  2:{ destruct C0 as (t & T1 & T2 & T3 & T4 & T5). exists t. split; [exact T1|]. split; [exact T2|].
      split; [exact T3|]. split; [discriminate|]. intros E. now apply Hu. }
  destruct (N.eqb_spec (w_lead g) Lead_CUTE_CHARM_F) as [EL|EL].
  - destruct (Hratio eq_refl) as [R|[R|R]].
    + destruct C0 as (t & T1 & T2 & T3 & T4 & T5). exists t. split; [exact T1|]. split; [exact T2|].
      split; [exact T3|]. split; [|intros E; now apply Hu].
      intros _. rewrite EL, N.eqb_refl, R. lia.
    + assert (Hmod : f mod 4 = 2 \/ f mod 4 = 3).
      { unfold f. destruct (N.eqb_spec species 201) as [E|E]; [|right; reflexivity].
        destruct (S2 eq_refl EL E) as [S2' _]. specialize (S2' R).
        pose proof (N.mod_lt form 4). lia. }
      destruct Hmod as [Hm|Hm].
      * destruct (C254 Hm) as (t & T1 & T2 & T3 & T4 & T5). exists t. split; [exact T1|]. split; [exact T2|].
        split; [exact T3|]. split; [|intros E; now apply Hu].
        intros _. rewrite EL, N.eqb_refl, R, T5. lia.
      * destruct (C255 Hm) as (t & T1 & T2 & T3 & T4 & T5). exists t. split; [exact T1|]. split; [exact T2|].
        split; [exact T3|]. split; [|intros E; now apply Hu].
        intros _. rewrite EL, N.eqb_refl, R, T5. lia.
    + assert (Hm : f mod 4 = 3).
      { unfold f. destruct (N.eqb_spec species 201) as [E|E]; [|reflexivity].
        destruct (S2 eq_refl EL E) as [_ S2']. exact (S2' R). }
      destruct (C255 Hm) as (t & T1 & T2 & T3 & T4 & T5). exists t. split; [exact T1|]. split; [exact T2|].
      split; [exact T3|]. split; [|intros E; now apply Hu].
      intros _. rewrite EL, N.eqb_refl, R, T5. lia.
  - specialize (S3 eq_refl EL).
    destruct C0 as (t & T1 & T2 & T3 & T4 & T5). exists t. split; [exact T1|]. split; [exact T2|].
    split; [exact T3|]. split; [|intros E; now apply Hu].
    intros _. destruct (N.eqb_spec (w_lead g) Lead_CUTE_CHARM_F); [contradiction|].
    destruct (Hratio eq_refl) as [R|[R|R]]; [contradiction| |]; rewrite R; lia.
Qed.

Lemma unsatisfiable pid : ~ satisfiable (w_lead g) ratio species form charm ->
  ~ accepts g ratio nature species form charm pid.
Proof.
  intros H (A1 & A2 & A3). apply H. split; [|split].
  - intros E. rewrite <- (A3 E). apply unown_letter_lt.
  - intros Ec EL E. specialize (A2 Ec). rewrite EL, N.eqb_refl in A2.
    rewrite <- (A3 E), unown_low.
    pose proof (N.mod_lt pid 256 ltac:(discriminate)).
    assert (Em : (pid mod 256) mod 4 = pid mod 4).
    { change 256 with (4 * 64). rewrite N.mod_mul_r by lia.
      rewrite (N.mul_comm 4), N.mod_add by lia. now rewrite N.mod_mod. }
    split; intros R; rewrite R in A2; rewrite <- Em.
    + assert (K : pid mod 256 = 254 \/ pid mod 256 = 255) by lia.
      destruct K as [-> | ->]; cbn; lia.
    + assert (K : pid mod 256 = 255) by lia. rewrite K. reflexivity.
  - intros Ec EL R. specialize (A2 Ec). destruct (N.eqb_spec (w_lead g) Lead_CUTE_CHARM_F); [contradiction|].
    rewrite R in A2. lia.
Qed.

(** The search ends with the first acceptable PID... *)
Lemma search_ends fuel k s : s < 2^32 -> 2^31 <= N.of_nat fuel ->
  satisfiable (w_lead g) ratio species form charm ->
  exists n, n < 2^31 /\
    pid_search fuel g info nature species form charm (steps k s) =
      Ok (steps (k + 2 * n + 2) s, pid_at (rand_at s) (k + 2 * n)) /\
    accepts g ratio nature species form charm (pid_at (rand_at s) (k + 2 * n)) /\
    forall j, j < n -> ~ accepts g ratio nature species form charm (pid_at (rand_at s) (k + 2 * j)).
Proof.
  intros Hs Hfuel Hsat.
  destruct (witness_exists (N.odd (steps k s)) Hsat) as (t & T1 & T2 & T3).
  destruct (reach (steps k s) t (steps_lt k s Hs) T1 (eq_sym T2)) as (j & Hj & Ej).
  assert (Hfm : form < 256) by lia.
  unfold pid_search.
  destruct (while_ok (fun s0 => pid_rejected g info nature species form charm (snd s0))
              (fun s0 => next_pid (fst s0)) fuel (next_pid (steps k s)) j)
    as (n & N1 & N2 & N3 & N4).
  - lia.
  - rewrite iter_next_pid by exact Hs. cbn [snd]. apply rejected_accepts; [exact Hfm|].
    replace (pid_at (rand_at s) (k + 2 * j)) with (pid_of t); [exact T3|].
    unfold pid_of. rewrite <- Ej, <- steps_add, pid_at_shift. f_equal. lia.
  - exists n. split; [lia|]. rewrite N2. rewrite iter_next_pid in N3 |- * by exact Hs. cbn [snd] in N3.
    split; [reflexivity|]. split; [now apply rejected_accepts in N3|].
    intros i Hi Hacc. specialize (N4 i Hi). rewrite iter_next_pid in N4 by exact Hs. cbn [snd] in N4.
    apply rejected_accepts in Hacc; [|exact Hfm]. congruence.
Qed.

(** ... or never, if no PID is acceptable. *)
Lemma search_forever fuel go : ~ satisfiable (w_lead g) ratio species form charm ->
  pid_search fuel g info nature species form charm go = Raise OutOfFuel.
Proof.
  intros H. unfold pid_search. apply (while_forever _ _ (fun _ => True)); [|exact I].
  intros [go' pid] _. split; [|exact I]. cbn [snd].
  destruct (pid_rejected g info nature species form charm pid) eqn:E; [reflexivity|].
  apply rejected_accepts in E; [|lia]. now apply unsatisfiable in E.
Qed.

(** Whatever the search returns is the first acceptable PID. *)
Lemma search_sound fuel k s r : s < 2^32 ->
  pid_search fuel g info nature species form charm (steps k s) = Ok r ->
  exists n, r = (steps (k + 2 * n + 2) s, pid_at (rand_at s) (k + 2 * n)) /\
    accepts g ratio nature species form charm (pid_at (rand_at s) (k + 2 * n)) /\
    forall j, j < n -> ~ accepts g ratio nature species form charm (pid_at (rand_at s) (k + 2 * j)).
Proof.
  intros Hs H. assert (Hfm : form < 256) by lia.
  apply while_inv in H. destruct H as (n & N1 & N3 & N4).
  rewrite iter_next_pid in N1 by exact Hs. exists n. subst r. cbn [snd] in N3.
  split; [reflexivity|]. split; [now apply rejected_accepts in N3|].
  intros i Hi Hacc. specialize (N4 i Hi). rewrite iter_next_pid in N4 by exact Hs. cbn [snd] in N4.
  apply rejected_accepts in Hacc; [|exact Hfm]. congruence.
Qed.
End Search.
