(** Reading the attributes of a personal table from a trie. *)
From Coq Require Import NArith Arith String List Bool Lia.
From Verif Require Import Base.Word Model.Personal Model.Trie Model.BundledPersonal Spec.PersonalSpec Spec.PersonalTableSpec
  Proofs.PersonalProofs.
Import ListNotations.
Open Scope list_scope.
Open Scope N_scope.

Definition tnum (tr : trie) (d : dtype) (i : N) : option N :=
  match d with
  | U8 => Some (byte_at tr i)
  | U16 => Some (byte_at tr i + 256 * byte_at tr (i + 1))
  | Bytes _ => None
  end.
Definition column (l : layout) (name : string) : option (N * dtype) :=
  match lookup l name 0 with Some (o, d) => Some (N.of_nat o, d) | None => None end.
Definition cell (tr : trie) (w : N) (c : option (N * dtype)) (k : N) : option N :=
  match c with Some (o, d) => tnum tr d (k * w + o) | None => None end.

Lemma lookup_bound l name : forall o o' d, lookup l name o = Some (o', d) ->
  (o <= o' /\ o' + width d <= o + size_of l)%nat.
Proof.
  induction l as [|[n e] l IH]; intros o o' d H; [discriminate|]. cbn [lookup] in H.
  change (size_of ((n, e) :: l)) with (width e + size_of l)%nat.
  destruct (String.eqb n name).
  - injection H as <- <-. lia.
  - apply IH in H. change (itemsize e) with (width e) in H. lia.
Qed.
Lemma file_length t size : length (file_bytes t size) = N.to_nat size.
Proof. unfold file_bytes. now rewrite map_length, seq_length. Qed.
Lemma nth_file t size i : (i < N.to_nat size)%nat -> nth i (file_bytes t size) 0 = byte_at t (N.of_nat i).
Proof.
  intros H. unfold file_bytes. rewrite (nth_indep _ 0 (byte_at t (N.of_nat 0))) by (now rewrite map_length, seq_length).
  rewrite (map_nth (fun j => byte_at t (N.of_nat j))). now rewrite seq_nth.
Qed.
Lemma nth_firstn {A} (d : A) n : forall i (l : list A), (i < n)%nat -> nth i (firstn n l) d = nth i l d.
Proof.
  induction n as [|n IH]; intros i l H; [lia|]. destruct l as [|x l]; [now destruct i|].
  destruct i; [reflexivity|]. cbn. apply IH. lia.
Qed.
Lemma block_nth t size w k o : (k * w + w <= N.to_nat size)%nat -> (o < w)%nat ->
  nth o (firstn w (skipn (k * w) (file_bytes t size))) 0 = byte_at t (N.of_nat k * N.of_nat w + N.of_nat o).
Proof.
  intros H Ho. rewrite nth_firstn by exact Ho. rewrite nth_skipn, nth_file by lia. f_equal. lia.
Qed.

Section Table.
Variables (t : table_name) (l : layout) (tr : trie) (count : N).
Let w := N.of_nat (size_of l).
Hypothesis Hs : personal_source t = Some (l, file_bytes tr (count * w)).
Hypothesis Hw : (0 < size_of l)%nat.

Lemma reads_cell k name n : reads t k name n <-> k < count /\ cell tr w (column l name) k = Some n.
Proof using Hs Hw.
  unfold reads, personal_attr, PERSONAL_INFO. rewrite Hs. rewrite load_nth by exact Hw. rewrite file_length.
  destruct (Nat.leb_spec (S (N.to_nat k) * size_of l) (N.to_nat (count * w))) as [H|H].
  - assert (Hk : k < count).
    { rewrite N2Nat.inj_mul in H. unfold w in H. rewrite Nat2N.id in H.
      apply Nat.mul_le_mono_pos_r in H; [lia|exact Hw]. }
    unfold get_field, column. destruct (lookup l name 0) as [[o d]|] eqn:E.
    2:{ split; [discriminate|intros [_ X]; discriminate]. }
    pose proof (lookup_bound l name _ _ _ E) as [_ B]. cbn [Nat.add] in B. cbn [cell].
    assert (H' : (N.to_nat k * size_of l + size_of l <= N.to_nat (count * w))%nat) by (cbn in H; lia).
    destruct d as [| |m]; cbn [read tnum width] in *; rewrite ?nth_skipn.
    + rewrite Nat.add_0_r, block_nth by (try exact H'; lia). rewrite N2Nat.id. fold w.
      split; [intros X; injection X as <-; now split|intros [_ X]; injection X as <-; reflexivity].
    + rewrite Nat.add_0_r, !block_nth by (try exact H'; lia). rewrite N2Nat.id. fold w.
      replace (k * w + N.of_nat (o + 1)) with (k * w + N.of_nat o + 1) by lia.
      split; [intros X; injection X as <-; now split|intros [_ X]; injection X as <-; reflexivity].
    + split; [discriminate|intros [_ X]; discriminate].
  - assert (Hk : count <= k).
    { rewrite N2Nat.inj_mul in H. unfold w in H. rewrite Nat2N.id in H.
      apply Nat.mul_lt_mono_pos_r in H; [lia|exact Hw]. }
    split; [discriminate|]. intros [X _]. lia.
Qed.
Lemma table_size : exists rs, PERSONAL_INFO t = Some (l, rs) /\ N.of_nat (length rs) = count /\
  forall r, In r rs -> length r = size_of l.
Proof using Hs Hw.
  unfold PERSONAL_INFO. rewrite Hs. exists (load_personal l (file_bytes tr (count * w))). split; [reflexivity|].
  assert (N_ : forall n, nth_error (load_personal l (file_bytes tr (count * w))) n =
      if (n <? N.to_nat count)%nat then Some (firstn (size_of l) (skipn (n * size_of l) (file_bytes tr (count * w)))) else None).
  { intros n. rewrite load_nth by exact Hw. rewrite file_length.
    replace (N.to_nat (count * w)) with (N.to_nat count * size_of l)%nat
      by (unfold w; rewrite N2Nat.inj_mul, Nat2N.id; reflexivity).
    destruct (Nat.leb_spec (S n * size_of l) (N.to_nat count * size_of l)) as [H|H], (Nat.ltb_spec n (N.to_nat count)) as [H'|H'];
      try reflexivity; exfalso.
    - apply Nat.mul_le_mono_pos_r in H; [lia|exact Hw].
    - apply Nat.mul_lt_mono_pos_r in H; [lia|exact Hw]. }
  split.
  - assert (L : length (load_personal l (file_bytes tr (count * w))) = N.to_nat count).
    { apply Nat.le_antisymm.
      - apply nth_error_None. rewrite N_. now rewrite Nat.ltb_irrefl.
      - destruct (N.to_nat count) as [|c] eqn:E; [lia|]. apply nth_error_Some. rewrite N_.
        destruct (Nat.ltb_spec c (S c)); [discriminate|lia]. }
    rewrite L. apply N2Nat.id.
  - intros r H. apply In_nth_error in H as [n H]. rewrite N_ in H. destruct (Nat.ltb_spec n (N.to_nat count)) as [L|L]; [|discriminate].
    injection H as <-. rewrite firstn_length, skipn_length, file_length. apply Nat.min_l.
    unfold w. rewrite N2Nat.inj_mul, Nat2N.id. nia.
Qed.
End Table.
