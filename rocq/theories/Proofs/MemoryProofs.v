(** Memory handed out by np.empty is overwritten before it is read. *)
From Coq Require Import NArith ZArith List Bool Arith Lia.
From Verif Require Import Base.Word Base.WordLemmas Model.Util Model.SHA1 Model.SHA1Class Model.RNGList Model.MT Model.SFMT Model.TinyMT
  Model.Xorshift Model.Xoroshiro Model.Gen3State Model.Gen3Area Model.Gen3Wild Spec.MTHistory Spec.SFMTHistory Spec.TinySpec Spec.Gen3Spec Spec.TableSpec
  Spec.MemorySpec Spec.RNGListSpec Proofs.RNGListProofs Proofs.MTFinal Proofs.SFMTFinal Proofs.TinyProofs Proofs.Gen3AreaProofs Proofs.TableProofs.
Import ListNotations.
Open Scope list_scope.
Open Scope N_scope.
Ltac Zify.zify_post_hook ::= idtac.

(** SHA1: two arrays that agree on known words. *)
Definition agree (P : nat -> bool) (d d' : list N) : Prop :=
  length d = 80%nat /\ length d' = 80%nat /\ forall i, P i = true -> dget d i = dget d' i.
Lemma agree_get P d d' i : agree P d d' -> P i = true -> dget d i = dget d' i.
Proof. intros (_ & _ & H). apply H. Qed.
Lemma agree_set P d d' i v v' : agree P d d' -> (i < 80)%nat -> v = v' ->
  agree (fun j => P j || (i =? j)%nat) (dset d i v) (dset d' i v').
Proof.
  intros (L & L' & H) Hi <-. unfold agree, dset. rewrite !aset_length. split; [exact L|]. split; [exact L'|].
  intros j Hj. unfold dget. rewrite !aget_aset by lia. destruct (Nat.eqb_spec i j) as [|N]; [reflexivity|].
  apply H. apply orb_true_iff in Hj. destruct Hj as [Hj|Hj]; [exact Hj|discriminate Hj].
Qed.
Lemma agree_weaken P Q d d' : agree P d d' -> (forall i, Q i = true -> P i = true) -> agree Q d d'.
Proof. intros (L & L' & H) W. split; [exact L|]. split; [exact L'|]. intros i Hi. apply H, W, Hi. Qed.
Fixpoint covers (l : list nat) (P : nat -> bool) : option (nat -> bool) :=
  match l with
  | [] => Some P
  | i :: l => if P (i - 3)%nat && P (i - 8)%nat && P (i - 14)%nat && P (i - 16)%nat && (i <? 80)%nat
              then covers l (fun j => P j || (i =? j)%nat) else None
  end.
Lemma agree_calc : forall l P Q d d', covers l P = Some Q -> agree P d d' ->
  agree Q (fold_left calc_w l d) (fold_left calc_w l d').
Proof.
  induction l as [|i l IH]; intros P Q d d' C A; cbn [fold_left covers] in C |- *.
  - injection C as <-. exact A.
  - destruct (P (i - 3)%nat && _ && _ && _ && _) eqn:E; [|discriminate C].
    apply andb_true_iff in E. destruct E as [E E5]. apply andb_true_iff in E. destruct E as [E E4].
    apply andb_true_iff in E. destruct E as [E E3]. apply andb_true_iff in E. destruct E as [E1 E2].
    apply Nat.ltb_lt in E5. apply (IH _ Q _ _ C). apply agree_set; [exact A|exact E5|].
    rewrite (agree_get P d d' _ A E1), (agree_get P d d' _ A E2), (agree_get P d d' _ A E3), (agree_get P d d' _ A E4). reflexivity.
Qed.
Lemma calc_frame l j : (j < 16)%nat -> (forall i, In i l -> (16 <= i < 80)%nat) -> forall d, length d = 80%nat ->
  dget (fold_left calc_w l d) j = dget d j.
Proof.
  intros Hj. induction l as [|i l IH]; intros H d L; cbn [fold_left]; [reflexivity|].
  assert (Hi := H i (or_introl eq_refl)).
  rewrite IH; [|intros k Hk; apply H; right; exact Hk|unfold calc_w, dset; rewrite aset_length; exact L].
  unfold calc_w, dset, dget. rewrite aget_aset by lia. destruct (Nat.eqb_spec i j); [lia|reflexivity].
Qed.
Lemma agree_both P Q d d' : agree P d d' -> agree Q d d' -> agree (fun j => P j || Q j) d d'.
Proof.
  intros (L & L' & H) (_ & _ & G). split; [exact L|]. split; [exact L'|]. intros i Hi.
  apply orb_true_iff in Hi. destruct Hi as [Hi|Hi]; [apply H|apply G]; exact Hi.
Qed.

(** Two objects, or two exceptions. *)
Definition alike (P : nat -> bool) (a b : sha1) : Prop :=
  agree P (sha_data a) (sha_data b) /\ sha_ds_type a = sha_ds_type b.
Definition alike_r (P : nat -> bool) (a b : res sha1) : Prop :=
  match a, b with Ok a, Ok b => alike P a b | Raise e, Raise e' => e = e' | _, _ => False end.
Definition with_words (P : nat -> bool) (l : list nat) (i : nat) : bool := P i || existsb (Nat.eqb i) l.
Lemma alike_set P a b s : alike P a b -> alike_r (fun j => P j || (word s =? j)%nat) (set a s) (set b s).
Proof.
  intros [A K]. assert (G : forall i v, (i < 80)%nat ->
    alike (fun j => P j || (i =? j)%nat) (mk_sha1 (dset (sha_data a) i v) (sha_ds_type a)) (mk_sha1 (dset (sha_data b) i v) (sha_ds_type a))).
  { intros i v Hi. split; [|reflexivity]. apply agree_set; [exact A|exact Hi|reflexivity]. }
  destruct s as [t v|y m d w|h m s|x]; unfold set, word.
  - unfold sha1_set_timer0. rewrite <- K. apply G. lia.
  - unfold sha1_set_date. rewrite <- K. destruct (bcd_at (w16 _)); cbn [rbind]; [|reflexivity].
    destruct (bcd_at (w8 m)); cbn [rbind]; [|reflexivity]. destruct (bcd_at (w8 d)); cbn [rbind]; [|reflexivity]. apply G. lia.
  - unfold sha1_set_time. cbv zeta. rewrite <- K. destruct (bcd_at (w8 h)); cbn [rbind]; [|reflexivity].
    destruct (bcd_at (w8 m)); cbn [rbind]; [|reflexivity]. destruct (bcd_at (w8 s)); cbn [rbind]; [|reflexivity].
    apply G. lia.
  - unfold sha1_set_button. rewrite <- K. apply G. lia.
Qed.
Lemma alike_weaken P Q a b : alike P a b -> (forall i, Q i = true -> P i = true) -> alike Q a b.
Proof. intros [A K] W. split; [exact (agree_weaken _ _ _ _ A W)|exact K]. Qed.
Lemma alike_set_all : forall l P a b, alike P a b -> alike_r (with_words P (map word l)) (set_all a l) (set_all b l).
Proof.
  induction l as [|s l IH]; intros P a b A; cbn [set_all map].
  - apply (alike_weaken _ _ _ _ A). intros i Hi. unfold with_words in Hi. cbn [existsb] in Hi. now rewrite orb_false_r in Hi.
  - pose proof (alike_set P a b s A) as B. destruct (set a s) as [a'|e], (set b s) as [b'|e']; cbn [rbind alike_r] in B |- *; try contradiction; [|exact B].
    specialize (IH _ _ _ B). destruct (set_all a' l) as [a2|e], (set_all b' l) as [b2|e']; cbn [alike_r] in IH |- *; try contradiction; [|exact IH].
    apply (alike_weaken _ _ _ _ IH). intros i Hi. unfold with_words in Hi |- *. cbn [existsb] in Hi.
    rewrite (Nat.eqb_sym i) in Hi. rewrite <- orb_assoc. exact Hi.
Qed.
Lemma rounds_ext f g a b c d e : (forall i, (i <= 8)%nat -> f i = g i) -> pre_rounds f a b c d e = pre_rounds g a b c d e.
Proof. intros H. unfold pre_rounds. rewrite !H by lia. reflexivity. Qed.

Definition known0 (i : nat) : bool := existsb (Nat.eqb i) [0; 1; 2; 3; 4; 6; 7; 10; 11; 13; 14; 15; 18]%nat.
Definition known1 (i : nat) : bool := known0 i || (i =? 5)%nat || (i =? 8)%nat.
Definition known2 (i : nat) : bool := (i <? 16)%nat || existsb (Nat.eqb i) [16; 18; 19; 21; 22; 24; 27; 30]%nat.
Lemma alike_precompute P a b : alike P a b -> (forall i, known1 i = true -> P i = true) ->
  exists Q, alike Q (fst (sha1_precompute a)) (fst (sha1_precompute b)) /\
  snd (sha1_precompute a) = snd (sha1_precompute b) /\
  (forall i, (i < 16)%nat -> P i = true -> Q i = true) /\
  (forall i, existsb (Nat.eqb i) [16; 18; 19; 21; 22; 24; 27; 30]%nat = true -> Q i = true).
Proof.
  intros [A K] H. pose proof (agree_weaken _ _ _ _ A H) as A1.
  pose proof (agree_calc [16; 19; 21; 22; 24; 27; 30]%nat known1 _ _ _ eq_refl A1) as B.
  match type of B with agree ?q _ _ => exists (fun j => q j || ((j <? 16)%nat && P j)) end.
  split; [|split; [|split]].
  - split; [|exact K]. apply agree_both; [exact B|]. destruct B as (L & L' & _). split; [exact L|]. split; [exact L'|].
    intros i Hi. apply andb_true_iff in Hi. destruct Hi as [Hi HP]. apply Nat.ltb_lt in Hi.
    destruct A as (M & M' & A). unfold sha1_precompute. cbn [fst sha_data].
    rewrite !calc_frame; [apply A, HP|exact Hi| |exact M'|exact Hi| |exact M]; cbn [In]; intros k Hk; lia.
  - apply rounds_ext. intros i Hi. apply (agree_get _ _ _ _ A). apply H. do 9 (destruct i as [|i]; [reflexivity|]). lia.
  - intros i Hi HP. rewrite HP. apply Nat.ltb_lt in Hi. rewrite Hi. apply orb_true_r.
  - intros i Hi. apply orb_true_iff. left. apply existsb_exists in Hi. destruct Hi as (j & Hj & E). apply Nat.eqb_eq in E. subst j.
    cbn [In] in Hj. decompose [or] Hj; try contradiction; subst i; reflexivity.
Qed.
Lemma agree_32 x x' : agree (fun i => (i <? 32)%nat) x x' ->
  for_range 48 32 (fun i data => calc_w_simd data i) x = for_range 48 32 (fun i data => calc_w_simd data i) x'.
Proof.
  intros D.
  assert (F : forall n lo x x', (lo + n <= 80)%nat -> (32 <= lo)%nat -> agree (fun i => (i <? lo)%nat) x x' ->
    agree (fun i => (i <? lo + n)%nat) (for_range n lo (fun i data => calc_w_simd data i) x) (for_range n lo (fun i data => calc_w_simd data i) x')).
  { clear. induction n as [|n IH]; intros lo x x' H H32 A; cbn [for_range].
    - rewrite Nat.add_0_r. exact A.
    - replace (lo + S n)%nat with (S lo + n)%nat by lia. apply IH; [lia|lia|].
      assert (G : forall j, (j < lo)%nat -> dget x j = dget x' j) by (intros j Hj; apply (agree_get _ _ _ _ A), Nat.ltb_lt, Hj).
      apply agree_weaken with (P := fun j => (j <? lo)%nat || (lo =? j)%nat).
      + apply agree_set; [exact A|lia|]. rewrite !G by lia. reflexivity.
      + intros i Hi. apply Nat.ltb_lt in Hi. apply orb_true_iff.
        destruct (Nat.eqb_spec lo i); [now right|left; apply Nat.ltb_lt; lia]. }
  assert (E : (32 + 48 <= 80)%nat) by lia. pose proof (F 48%nat 32%nat x x' E (le_n 32) D) as A. revert A.
  generalize (for_range 48 32 (fun i data => calc_w_simd data i) x), (for_range 48 32 (fun i data => calc_w_simd data i) x').
  intros y y' (L & L' & G).
  apply list_eq_aget; [exact (eq_trans L (eq_sym L'))|]. intros i Hi. apply G. apply Nat.ltb_lt.
  change (32 + 48)%nat with 80%nat. rewrite <- L. exact Hi.
Qed.
Lemma agree_31 x x' : agree known2 x x' ->
  agree (fun i => (i <? 32)%nat) (fold_left calc_w [17; 20; 23; 25; 26; 28; 29; 31]%nat x) (fold_left calc_w [17; 20; 23; 25; 26; 28; 29; 31]%nat x').
Proof.
  intros B. pose proof (fun Q H => agree_calc [17; 20; 23; 25; 26; 28; 29; 31]%nat known2 Q _ _ H B) as C. specialize (C _ eq_refl).
  apply (agree_weaken _ _ _ _ C). intros i Hi. apply Nat.ltb_lt in Hi.
  do 32 (destruct i as [|i]; [reflexivity|]). lia.
Qed.
Lemma alike_hash a b alpha : alike known2 a b -> snd (sha1_hash_seed a alpha) = snd (sha1_hash_seed b alpha).
Proof.
  intros [B K]. pose proof (agree_32 _ _ (agree_31 _ _ B)) as E. destruct a as [d k], b as [d' k']. cbn [sha_data sha_ds_type] in *.
  unfold sha1_hash_seed. cbn [sha_data sha_ds_type]. rewrite E, K. reflexivity.
Qed.
Ltac set_step := match goal with A : agree ?P ?x ?y |- context [dset ?x ?i ?v] =>
  match goal with |- context [dset y i ?v'] =>
    let E := fresh in assert (E : v = v') by (repeat rewrite (agree_get _ _ _ _ A) by reflexivity; reflexivity);
    let B := fresh in pose proof (agree_set P x y i v v' A ltac:(lia) E) as B; revert B;
    generalize (dset x i v), (dset y i v'); clear E; revert A; intros _; intros
  end end.
Lemma alike_new junk junk' version language ds_type mac soft_reset v_frame gx_state :
  length junk = 80%nat -> length junk' = 80%nat ->
  alike known0 (sha1_new junk version language ds_type mac soft_reset v_frame gx_state)
               (sha1_new junk' version language ds_type mac soft_reset v_frame gx_state).
Proof.
  intros L L'. split; [|reflexivity]. unfold sha1_new. cbv zeta. cbn [sha_data].
  assert (A0 : agree (fun _ => false) junk junk') by (split; [exact L|]; split; [exact L'|]; discriminate).
  cbn [for_range].
  repeat match goal with |- context [aget (get_nazo ?a ?b ?c) ?i] => generalize (aget (get_nazo a b c) i); intro end.
  generalize (N.land (w64 mac) 65535), (N.lxor (N.lxor (w32 (N.shiftr (w64 mac) 16)) (shl32 (w8 v_frame) 24)) (w8 gx_state)). intros.
  destruct soft_reset.
  - do 14 set_step. eapply agree_weaken; [eassumption|]. intros i Hi. apply existsb_exists in Hi. destruct Hi as (j & Hj & E).
    apply Nat.eqb_eq in E. subst j. cbn [In] in Hj. decompose [or] Hj; try contradiction; subst i; reflexivity.
  - do 13 set_step. eapply agree_weaken; [eassumption|]. intros i Hi. apply existsb_exists in Hi. destruct Hi as (j & Hj & E).
    apply Nat.eqb_eq in E. subst j. cbn [In] in Hj. decompose [or] Hj; try contradiction; subst i; reflexivity.
Qed.
Lemma In_existsb i l : In i l -> existsb (Nat.eqb i) l = true.
Proof. intros H. apply existsb_exists. exists i. split; [exact H|apply Nat.eqb_refl]. Qed.
Lemma sha1_memory junk junk' version language ds_type mac soft_reset v_frame gx_state before after :
  length junk = 80%nat -> length junk' = 80%nat ->
  In 5%nat (map word before) -> In 8%nat (map word before) ->
  In 9%nat (map word (before ++ after)) -> In 12%nat (map word (before ++ after)) ->
  seed_after (sha1_new junk version language ds_type mac soft_reset v_frame gx_state) before after =
  seed_after (sha1_new junk' version language ds_type mac soft_reset v_frame gx_state) before after.
Proof.
  intros L L' H5 H8 H9 H12. rewrite map_app in H9, H12.
  pose proof (alike_new junk junk' version language ds_type mac soft_reset v_frame gx_state L L') as A.
  revert A. generalize (sha1_new junk version language ds_type mac soft_reset v_frame gx_state), (sha1_new junk' version language ds_type mac soft_reset v_frame gx_state).
  intros a b A. apply (alike_set_all before) in A. unfold seed_after.
  destruct (set_all a before) as [a1|e], (set_all b before) as [b1|e']; cbn [alike_r rbind] in A |- *; try contradiction; [|now rewrite A].
  destruct (alike_precompute _ _ _ A) as (Q & B & Al & Q1 & Q2).
  { intros i Hi. unfold with_words. unfold known1 in Hi. apply orb_true_iff in Hi. destruct Hi as [Hi|Hi].
    - apply orb_true_iff in Hi. destruct Hi as [Hi|Hi]; [now rewrite Hi|]. apply Nat.eqb_eq in Hi. subst i. rewrite (In_existsb _ _ H5). apply orb_true_r.
    - apply Nat.eqb_eq in Hi. subst i. rewrite (In_existsb _ _ H8). apply orb_true_r. }
  destruct (sha1_precompute a1) as [a2 alpha], (sha1_precompute b1) as [b2 alpha']. cbn [fst snd] in B, Al. subst alpha'.
  apply (alike_set_all after) in B.
  destruct (set_all a2 after) as [a3|e], (set_all b2 after) as [b3|e']; cbn [alike_r rbind] in B |- *; try contradiction; [|now rewrite B].
  rewrite (alike_hash a3 b3 alpha); [reflexivity|]. apply (alike_weaken _ _ _ _ B). intros i Hi. unfold known2 in Hi. apply orb_true_iff in Hi.
  unfold with_words at 1. destruct Hi as [Hi|Hi]; [|rewrite (Q2 i Hi); reflexivity]. apply Nat.ltb_lt in Hi.
  assert (E : known0 i = true \/ i = 5%nat \/ i = 8%nat \/ i = 9%nat \/ i = 12%nat).
  { do 16 (destruct i as [|i]; [cbn; tauto|]). lia. }
  assert (W : forall j, In j (map word before ++ map word after) -> i = j -> Q i || existsb (Nat.eqb i) (map word after) = true).
  { intros j Hj <-. apply in_app_or in Hj. destruct Hj as [Hj|Hj].
    - rewrite Q1; [reflexivity|exact Hi|]. unfold with_words. rewrite (In_existsb _ _ Hj). apply orb_true_r.
    - rewrite (In_existsb _ _ Hj). apply orb_true_r. }
  destruct E as [E|[E|[E|[E|E]]]].
  - rewrite Q1; [reflexivity|exact Hi|]. unfold with_words. rewrite E. reflexivity.
  - exact (W _ (in_or_app _ _ _ (or_introl H5)) E).
  - exact (W _ (in_or_app _ _ _ (or_introl H8)) E).
  - exact (W _ H9 E).
  - exact (W _ H12 E).
Qed.

(** A word whose setter is not called is still what the memory held. *)
Lemma dget_dset_ne d i j v : i <> j -> dget (dset d i v) j = dget d j.
Proof. intros H. unfold dget, dset. apply aget_aset_ne. exact H. Qed.
Lemma new_frame junk version language ds_type mac soft_reset v_frame gx_state i : In i words ->
  dget (sha_data (sha1_new junk version language ds_type mac soft_reset v_frame gx_state)) i = dget junk i.
Proof.
  intros Hi. unfold sha1_new. cbv zeta. cbn [sha_data for_range]. 
  assert (N : forall d j v, ~ In j words -> dget (dset d j v) i = dget d i) by (intros d j v Hj; apply dget_dset_ne; intros ->; contradiction).
  destruct soft_reset; repeat (rewrite N; [|clear; cbn; lia]); reflexivity.
Qed.
Lemma set_frame s a b i : set a s = Ok b -> word s <> i -> dget (sha_data b) i = dget (sha_data a) i.
Proof.
  intros H W. destruct s as [t v|y m d w|h m s|x]; unfold set, word in *.
  - injection H as <-. apply dget_dset_ne, W.
  - unfold sha1_set_date in H. destruct (bcd_at (w16 _)); cbn [rbind] in H; [|discriminate H].
    destruct (bcd_at (w8 m)); cbn [rbind] in H; [|discriminate H]. destruct (bcd_at (w8 d)); cbn [rbind] in H; [|discriminate H].
    injection H as <-. apply dget_dset_ne, W.
  - unfold sha1_set_time in H. destruct (bcd_at (w8 h)); cbn [rbind] in H; [|discriminate H]. cbv zeta in H.
    destruct (bcd_at (w8 m)); cbn [rbind] in H; [|discriminate H]. destruct (bcd_at (w8 s)); cbn [rbind] in H; [|discriminate H].
    injection H as <-. apply dget_dset_ne, W.
  - injection H as <-. apply dget_dset_ne, W.
Qed.
Lemma set_all_frame : forall l a b i, set_all a l = Ok b -> ~ In i (map word l) -> dget (sha_data b) i = dget (sha_data a) i.
Proof.
  induction l as [|s l IH]; intros a b i H N; cbn [set_all map In] in H, N.
  - injection H as <-. reflexivity.
  - destruct (set a s) as [a'|e] eqn:E; cbn [rbind] in H; [|discriminate H].
    rewrite (IH _ _ _ H) by tauto. apply (set_frame s); [exact E|tauto].
Qed.
Lemma sha1_unset junk version language ds_type mac soft_reset v_frame gx_state l self i :
  set_all (sha1_new junk version language ds_type mac soft_reset v_frame gx_state) l = Ok self ->
  In i words -> ~ In i (map word l) -> nth i (sha_data self) 0 = nth i junk 0.
Proof.
  intros H Hi N. change (dget (sha_data self) i = dget junk i). rewrite (set_all_frame _ _ _ _ H N). apply new_frame, Hi.
Qed.

(** The generators' constructors. *)
Lemma mt_calls_nil m s : s = fst (mt_calls m s []).
Proof. reflexivity. Qed.
Lemma mt_memory junk junk' seed : length junk = 624%nat -> length junk' = 624%nat -> mt_new junk seed = mt_new junk' seed.
Proof.
  intros L L'. assert (R : mt_reached NumPy (mt_new junk 0)) by (exists junk, 0, []; exact (conj L (mt_calls_nil _ _))).
  rewrite <- (proj1 (mt_re_init_same_future NumPy _ junk seed R L)). exact (proj1 (mt_re_init_same_future NumPy _ junk' seed R L')).
Qed.
Lemma sfmt_calls_nil m s : s = fst (sfmt_calls m s []).
Proof. reflexivity. Qed.
Lemma sfmt_memory junk junk' seed : length junk = 624%nat -> length junk' = 624%nat -> sfmt_new junk seed = sfmt_new junk' seed.
Proof.
  intros L L'. assert (R : sfmt_reached NumPy (sfmt_new junk 0)) by (exists junk, 0, []; exact (conj L (sfmt_calls_nil _ _))).
  rewrite <- (proj1 (sfmt_re_init_same_future NumPy _ junk seed R L)). exact (proj1 (sfmt_re_init_same_future NumPy _ junk' seed R L')).
Qed.
Lemma tiny_calls_nil m s : s = fst (tiny_calls m s []).
Proof. reflexivity. Qed.
Lemma tiny_memory m junk junk' seed : length junk = 4%nat -> length junk' = 4%nat -> tiny_new m junk seed = tiny_new m junk' seed.
Proof.
  intros L L'. assert (R : tiny_reached m (tiny_new m junk 0)) by (exists junk, 0, []; exact (conj L (tiny_calls_nil _ _))).
  rewrite <- (proj1 (tiny_re_init_fresh m m _ junk seed R L)). exact (proj1 (tiny_re_init_fresh m m _ junk' seed R L')).
Qed.
Lemma xs_memory junk junk' a b c d : length junk = 4%nat -> length junk' = 4%nat -> xs_new junk a b c d = xs_new junk' a b c d.
Proof.
  intros L L'. do 5 (destruct junk as [|? junk]; try discriminate L). do 5 (destruct junk' as [|? junk']; try discriminate L'). reflexivity.
Qed.
Lemma xo_memory junk junk' a b : length junk = 2%nat -> length junk' = 2%nat -> xo_new junk a b = xo_new junk' a b.
Proof.
  intros L L'. do 3 (destruct junk as [|? junk]; try discriminate L). do 3 (destruct junk' as [|? junk']; try discriminate L'). reflexivity.
Qed.
Lemma sm_memory junk junk' a : length junk = 2%nat -> length junk' = 2%nat -> sm_new junk a = sm_new junk' a.
Proof.
  intros L L'. do 3 (destruct junk as [|? junk]; try discriminate L). do 3 (destruct junk' as [|? junk']; try discriminate L'). reflexivity.
Qed.
Lemma rl_memory {S} cast (nxt : S -> S * N) size s0 junk junk' :
  N.of_nat (length junk) = size -> N.of_nat (length junk') = size ->
  rl_new cast nxt size junk s0 = rl_new cast nxt size junk' s0.
Proof.
  intros L L'. unfold rl_new, rl_re_init. cbn [rl_rng rl_list].
  destruct (fill_inv cast nxt s0 size 0 junk L) as (l & E & Hl & V).
  destruct (fill_inv cast nxt s0 size 0 junk' L') as (l' & E' & Hl' & V').
  change (N.iter 0 (fun s => fst (nxt s)) s0) with s0 in E, E'. rewrite E, E'. f_equal.
  apply list_eq_aget; [lia|]. intros i Hi. rewrite <- (Nat2N.id i). rewrite V, V' by lia. reflexivity.
Qed.

(** Slot tables whose ranges cover all rolls. *)
Lemma table_memory junk junk' ranges : length junk = 100%nat -> length junk' = 100%nat ->
  (increasing_to_100 0 ranges -> compute_table junk ranges false = compute_table junk' ranges false) /\
  (decreasing_to_minus_1 99 ranges -> compute_table junk ranges true = compute_table junk' ranges true).
Proof.
  intros L L'. split; intros H.
  - destruct (c44_actual junk ranges L H) as (t & -> & Lt & V). destruct (c44_actual junk' ranges L' H) as (t' & -> & Lt' & V').
    f_equal. apply list_eq_aget; [congruence|]. intros i Hi. rewrite <- (Nat2N.id i). rewrite V, V' by lia. reflexivity.
  - destruct (greater_table junk ranges L H) as (t & -> & Lt & V). destruct (greater_table junk' ranges L' H) as (t' & -> & Lt' & V').
    f_equal. apply list_eq_aget; [congruence|]. intros i Hi. rewrite <- (Nat2N.id i). unfold aget. rewrite V, V' by lia. reflexivity.
Qed.

(** The stats of a generated state. *)
Definition same_upto (k : nat) (u v : upd) : Prop :=
  u_hpv u = u_hpv v /\ u_hps u = u_hps v /\ u_char u = u_char v /\ u_max_iv u = u_max_iv v /\
  length (u_stats u) = 6%nat /\ length (u_stats v) = 6%nat /\
  forall i, (i < k)%nat -> aget (u_stats u) i = aget (u_stats v) i.
Definition same_r (k : nat) (u v : res upd) : Prop :=
  match u, v with Ok u, Ok v => same_upto k u v | Raise e, Raise e' => e = e' | _, _ => False end.
Lemma body_same ivs base level nature ec k u v : (k < 6)%nat -> same_upto k u v ->
  same_r (S k) (update_body ivs base level nature ec k u) (update_body ivs base level nature ec k v).
Proof.
  intros Hk (E1 & E2 & E3 & E4 & L & L' & V). unfold update_body. cbv zeta. rewrite E1, E2, E3, E4.
  assert (G : forall x, same_r (S k)
    (rbind (asetr (u_stats u) k x) (fun stats => let index := aget CHAR_ORDER (N.to_nat ec + k) in
       let iv := aget ivs (N.to_nat (aget ORDER (N.to_nat index))) in
       if u_max_iv v <? iv
       then Ok (mkUpd (u_hpv v + N.shiftl (N.land (aget ivs (N.to_nat (aget ORDER k))) 1) (N.of_nat k))
                      (u_hps v + N.shiftl (N.land (N.shiftr (aget ivs (N.to_nat (aget ORDER k))) 1) 1) (N.of_nat k)) stats index iv)
       else Ok (mkUpd (u_hpv v + N.shiftl (N.land (aget ivs (N.to_nat (aget ORDER k))) 1) (N.of_nat k))
                      (u_hps v + N.shiftl (N.land (N.shiftr (aget ivs (N.to_nat (aget ORDER k))) 1) 1) (N.of_nat k)) stats (u_char v) (u_max_iv v))))
    (rbind (asetr (u_stats v) k x) (fun stats => let index := aget CHAR_ORDER (N.to_nat ec + k) in
       let iv := aget ivs (N.to_nat (aget ORDER (N.to_nat index))) in
       if u_max_iv v <? iv
       then Ok (mkUpd (u_hpv v + N.shiftl (N.land (aget ivs (N.to_nat (aget ORDER k))) 1) (N.of_nat k))
                      (u_hps v + N.shiftl (N.land (N.shiftr (aget ivs (N.to_nat (aget ORDER k))) 1) 1) (N.of_nat k)) stats index iv)
       else Ok (mkUpd (u_hpv v + N.shiftl (N.land (aget ivs (N.to_nat (aget ORDER k))) 1) (N.of_nat k))
                      (u_hps v + N.shiftl (N.land (N.shiftr (aget ivs (N.to_nat (aget ORDER k))) 1) 1) (N.of_nat k)) stats (u_char v) (u_max_iv v))))).
  { intros x. unfold asetr. rewrite L, L'. destruct (Nat.ltb_spec k 6); [|lia]. cbn [rbind]. cbv zeta.
    assert (W : forall i, (i < S k)%nat -> aget (aset (u_stats u) k x) i = aget (aset (u_stats v) k x) i).
    { intros i Hi. rewrite !aget_aset by lia. destruct (Nat.eqb_spec k i); [reflexivity|]. apply V. lia. }
    destruct (u_max_iv v <? _); cbn [same_r]; unfold same_upto; cbn [u_hpv u_hps u_char u_max_iv u_stats]; rewrite !aset_length; tauto. }
  destruct k as [|k]; [apply G|]. destruct (compute_stat _ _ _) as [x|e]; cbn [rbind]; [apply G|reflexivity].
Qed.
Lemma loop_same ivs base level nature ec : forall n k u v, (k + n <= 6)%nat -> same_upto k u v ->
  same_r (k + n) (for_range_r n k (update_body ivs base level nature ec) u) (for_range_r n k (update_body ivs base level nature ec) v).
Proof.
  induction n as [|n IH]; intros k u v H A; cbn [for_range_r].
  - rewrite Nat.add_0_r. exact A.
  - pose proof (body_same ivs base level nature ec k u v ltac:(lia) A) as B.
    destruct (update_body ivs base level nature ec k u) as [u'|e], (update_body ivs base level nature ec k v) as [v'|e']; cbn [same_r rbind] in B |- *; try contradiction; [|exact B].
    replace (k + S n)%nat with (S k + n)%nat by lia. apply IH; [lia|exact B].
Qed.
Lemma gstate_memory m junk junk' advance pid species form ivs ability level shiny info :
  length junk = 6%nat -> length junk' = 6%nat ->
  gstate_new m junk advance pid species form ivs ability level shiny info =
  gstate_new m junk' advance pid species form ivs ability level shiny info.
Proof.
  intros L L'. unfold gstate_new. cbv zeta.
  match goal with |- rbind (for_range_r 6 0 (update_body ?a ?b ?c ?d ?e) (mkUpd 0 0 _ ?f 0)) _ = _ =>
    assert (A : same_upto 0 (mkUpd 0 0 junk f 0) (mkUpd 0 0 junk' f 0))
      by (unfold same_upto; cbn [u_hpv u_hps u_char u_max_iv u_stats]; repeat split; auto; intros i Hi; lia);
    pose proof (loop_same a b c d e 6%nat 0%nat _ _ ltac:(lia) A) as B; revert B;
    generalize (for_range_r 6 0 (update_body a b c d e) (mkUpd 0 0 junk f 0)), (for_range_r 6 0 (update_body a b c d e) (mkUpd 0 0 junk' f 0)) end.
  intros [u|e] [v|e'] B; cbn [same_r rbind] in B |- *; try contradiction; [|now rewrite B].
  destruct B as (E1 & E2 & E3 & E4 & Lu & Lv & V).
  assert (E5 : u_stats u = u_stats v).
  { apply list_eq_aget; [congruence|]. intros i Hi. apply V. cbn [Nat.add]. lia. }
  rewrite E1, E2, E3, E4, E5. reflexivity.
Qed.
Lemma step_memory fuel junk junk' g area slots rate rse_safari rse cute_charm rng advance :
  length junk = 6%nat -> length junk' = 6%nat ->
  wild_step fuel junk g area slots rate rse_safari rse cute_charm rng advance =
  wild_step fuel junk' g area slots rate rse_safari rse cute_charm rng advance.
Proof.
  intros L L'. unfold wild_step. cbv zeta.
  assert (F : forall info advance species form level go pid, finish_state g junk info advance species form level go pid = finish_state g junk' info advance species form level go pid).
  { intros. unfold finish_state. destruct (poke_next_u16 _) as [go1 iv1]. destruct (poke_next_u16 _) as [go2 iv2]. apply gstate_memory; assumption. }
  assert (X : forall {A B} (x : N * res A) (f h : N -> A -> N * res B), (forall s a, f s a = h s a) -> sbind x f = sbind x h).
  { intros A B [s [a|e]] f h E; cbn [sbind]; [apply E|reflexivity]. }
  f_equal. apply X. intros go skip. destruct skip; [reflexivity|]. apply X. intros go1 slot. apply X. intros go2 level.
  destruct (nth_error _ _) as [info|]; [|reflexivity]. apply X. intros go3 cc. apply X. intros go4 nat.
  destruct (pid_search _ _ _ _ _ _ _ _) as [[go5 pid]|e]; [|reflexivity]. rewrite F. reflexivity.
Qed.
Lemma loop_memory fuel junk junk' g area slots rate rse_safari rse : length junk = 6%nat -> length junk' = 6%nat ->
  forall n advance rng cute_charm,
  wild_loop fuel junk g area slots rate rse_safari rse n advance rng cute_charm =
  wild_loop fuel junk' g area slots rate rse_safari rse n advance rng cute_charm.
Proof.
  intros L L'. induction n as [|n IH]; intros advance rng cc; cbn [wild_loop]; [reflexivity|].
  rewrite (step_memory fuel junk junk' g area slots rate rse_safari rse cc rng advance L L').
  destruct (wild_step _ _ _ _ _ _ _ _ _ _ _) as [[cc' [st|]]|e]; cbn [rbind]; [|apply IH|reflexivity]. rewrite IH. reflexivity.
Qed.
Lemma wild_memory fuel junk junk' g seed delay initial_advances max_advances area :
  length junk = 6%nat -> length junk' = 6%nat ->
  wild_generate fuel junk g seed delay initial_advances max_advances area =
  wild_generate fuel junk' g seed delay initial_advances max_advances area.
Proof.
  intros L L'. unfold wild_generate. destruct (get_modified_slots _ _ _ _ _) as [slots|e]; cbn [rbind]; [|reflexivity]. cbv zeta.
  destruct (poke_jump _ _) as [rng [u|e]]; [|reflexivity]. apply loop_memory; assumption.
Qed.
