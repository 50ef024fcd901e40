(** compute_table counting down is compute_table counting up, mirrored. *)
From Coq Require Import NArith ZArith List Bool Lia.
From Verif Require Import Base.Word Base.WordLemmas Model.Gen3Area Spec.Gen3Spec Spec.TableSpec Proofs.Gen3AreaProofs.
Import ListNotations.
Ltac Zify.zify_post_hook ::= idtac.
Open Scope N_scope.

Lemma aget_rev t k : (k < length t)%nat -> aget (rev t) k = aget t (length t - S k).
Proof. intros H. unfold aget. now rewrite rev_nth. Qed.
Lemma rev_aset (t : list N) k v : (k < length t)%nat -> rev (aset t k v) = aset (rev t) (length t - S k) v.
Proof.
  intros H. apply (nth_ext _ _ 0 0).
  - now rewrite rev_length, !aset_length, rev_length.
  - intros j Hj. rewrite rev_length, aset_length in Hj.
    change (aget (rev (aset t k v)) j = aget (aset (rev t) (length t - S k) v) j).
    rewrite aget_rev by (rewrite aset_length; lia). rewrite aset_length.
    rewrite !aget_aset by (rewrite ?rev_length; lia). rewrite aget_rev by lia.
    destruct (Nat.eqb_spec k (length t - S j)), (Nat.eqb_spec (length t - S k) j); try reflexivity; lia.
Qed.

Definition mirror (r : Z) : Z := (99 - r)%Z.
Lemma fill_mirror c : forall r i t last, (-1 <= r - Z.of_nat c)%Z -> (r < 100)%Z -> length t = 100%nat ->
  fill c (mirror r) 1 i (rev t) (mirror last) =
  rmap (fun '(t, l) => (rev t, mirror l)) (fill c r (-1) i t last).
Proof.
  induction c as [|c IH]; intros r i t last H1 H2 Ht; [reflexivity|]. cbn [fill].
  assert (I : table_index r = Ok (Z.to_nat r)).
  { unfold table_index. destruct (Z.leb_spec 0 r); [|lia]. destruct (Z.ltb_spec r 100); [reflexivity|lia]. }
  assert (J : table_index (mirror r) = Ok (99 - Z.to_nat r)%nat).
  { unfold table_index, mirror. destruct (Z.leb_spec 0 (99 - r)); [|lia]. destruct (Z.ltb_spec (99 - r) 100); [|lia].
    cbn [andb]. f_equal. lia. }
  rewrite I, J. cbn [rbind]. rewrite <- IH by (try rewrite aset_length; lia).
  rewrite rev_aset, Ht by lia. replace (mirror (r + -1)) with (mirror r + 1)%Z by (unfold mirror; lia). reflexivity.
Qed.
Lemma fill_length c : forall r s i t last t' l, fill c r s i t last = Ok (t', l) -> length t' = length t.
Proof.
  induction c as [|c IH]; intros r s i t last t' l E; cbn [fill] in E.
  - now injection E as <- <-.
  - destruct (table_index r); [|discriminate]. cbn [rbind] in E. apply IH in E. now rewrite aset_length in E.
Qed.
Lemma fill_last c : forall r i t last t' l, fill c r (-1) i t last = Ok (t', l) ->
  l = if (c =? 0)%nat then last else (r - Z.of_nat c + 1)%Z.
Proof.
  induction c as [|c IH]; intros r i t last t' l E; cbn [fill] in E.
  - now injection E as <- <-.
  - destruct (table_index r); [|discriminate]. cbn [rbind] in E. apply IH in E. rewrite E.
    destruct c; cbn [Nat.eqb]; lia.
Qed.
Lemma decreasing_ge hi l : decreasing_to_minus_1 hi l -> Forall (fun c => (-1 <= c)%Z) l.
Proof.
  revert hi. induction l as [|c [|c' rest] IH]; intros hi H; cbn in H.
  - constructor.
  - constructor; [lia|constructor].
  - destruct H as [_ H]. specialize (IH c H). constructor; [|exact IH].
    assert (c' < c)%Z by (destruct rest; cbn in H; lia). inversion IH; lia.
Qed.
Lemma loop_mirror l : forall i r t, Forall (fun c => (-1 <= c)%Z) l -> (0 <= r < 100)%Z -> length t = 100%nat ->
  table_loop (map mirror l) false i (mirror r) (rev t) = rmap (@rev N) (table_loop l true i r t).
Proof.
  induction l as [|c rest IH]; intros i r t F H Ht; [reflexivity|]. inversion F; subst.
  cbn [map table_loop]. replace (Z.to_nat (mirror c - mirror r)) with (Z.to_nat (r - c)) by (unfold mirror; lia).
  rewrite fill_mirror by (try exact Ht; lia).
  destruct (fill (Z.to_nat (r - c)) r (-1) i t r) as [[t' l']|e] eqn:E; cbn [rmap rbind]; [|reflexivity].
  pose proof (fill_length _ _ _ _ _ _ _ _ E) as L. pose proof (fill_last _ _ _ _ _ _ _ E) as La.
  apply IH; [assumption| |lia]. rewrite La. destruct (Nat.eqb_spec (Z.to_nat (r - c)) 0); lia.
Qed.
Lemma mirror_increasing l : forall hi, decreasing_to_minus_1 hi l -> increasing_to_100 (mirror hi) (map mirror l).
Proof.
  induction l as [|c [|c' rest] IH]; intros hi H; cbn in H.
  - contradiction.
  - cbn [map increasing_to_100]. unfold mirror. lia.
  - destruct H as [H1 H2]. specialize (IH c H2). cbn [map] in *. split; [unfold mirror; lia|exact IH].
Qed.
Lemma mirror_slot l r : slot_of_roll (map mirror l) (mirror r) = slot_of_roll_down l r.
Proof.
  induction l as [|c rest IH]; [reflexivity|]. cbn [map slot_of_roll slot_of_roll_down]. rewrite IH. unfold mirror.
  destruct (Z.ltb_spec (99 - r) (99 - c)), (Z.ltb_spec c r); try reflexivity; lia.
Qed.
Lemma mirror_exists l r : existsb (Z.eqb (mirror r + 1)) (map mirror l) = existsb (Z.eqb (r - 1)) l.
Proof.
  induction l as [|c rest IH]; [reflexivity|]. cbn [map existsb]. rewrite IH. f_equal. unfold mirror.
  destruct (Z.eqb_spec (99 - r + 1) (99 - c)), (Z.eqb_spec (r - 1) c); try reflexivity; lia.
Qed.
Lemma greater_table junk ranges : length junk = 100%nat -> decreasing_to_minus_1 99 ranges ->
  exists t, compute_table junk ranges true = Ok t /\ length t = 100%nat /\
    forall r, r < 100 ->
      nth (N.to_nat r) t 0 =
        slot_of_roll_down ranges (Z.of_N r) +
        (if existsb (Z.eqb (Z.of_N r - 1)) ranges && (0 <? r) then 1 else 0).
Proof.
  intros Hj H. pose proof (mirror_increasing ranges 99 H) as Hi. change (mirror 99) with 0%Z in Hi.
  destruct (c44_actual (rev junk) (map mirror ranges)) as (t & E & L & G); [now rewrite rev_length|exact Hi|].
  unfold compute_table in *. change 0%Z with (mirror 99) in E.
  rewrite loop_mirror in E by (try exact Hj; try lia; exact (decreasing_ge _ _ H)).
  destruct (table_loop ranges true 0 99 junk) as [u|e]; cbn [rmap rbind] in E; [|discriminate]. injection E as <-.
  rewrite rev_length in L. exists u. split; [reflexivity|]. split; [exact L|]. intros r Hr.
  specialize (G (99 - r) ltac:(lia)). rewrite aget_rev in G by lia.
  replace (length u - S (N.to_nat (99 - r)))%nat with (N.to_nat r) in G by lia.
  change (nth (N.to_nat r) u 0) with (aget u (N.to_nat r)). rewrite G.
  rewrite (early_vs_roll _ 0%Z (Z.of_N (99 - r)) Hi) by lia.
  replace (Z.of_N (99 - r)) with (mirror (Z.of_N r)) by (unfold mirror; lia). rewrite mirror_slot, mirror_exists.
  f_equal. f_equal. f_equal. unfold mirror. destruct (Z.ltb_spec (99 - Z.of_N r + 1) 100), (N.ltb_spec 0 r); try reflexivity; lia.
Qed.
