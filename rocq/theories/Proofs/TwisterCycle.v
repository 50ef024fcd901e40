(** Block twisters run in cycles, and never die out. *)
From Coq Require Import NArith Arith List Bool Lia.
From Verif Require Import Base.Word Base.WordLemmas Model.MT Model.SFMT Spec.MTSpec Spec.MTHistory Spec.SFMTSpec Spec.SFMTHistory Spec.CountSpec Spec.CycleSpec
  Proofs.Count Proofs.MTProofs Proofs.MTFinal Proofs.SFMTProofs Proofs.SFMTShuffle Proofs.SFMTFinal Proofs.StateRecover.
Import ListNotations.
Open Scope N_scope.
Ltac Zify.zify_post_hook ::= idtac.

(** ** A key below c repeats *)
Lemma repeats_or_not (key : N -> N) n :
  (exists i j, i < j /\ j < n /\ key i = key j) \/ (forall i j, i < n -> j < n -> key i = key j -> i = j).
Proof.
  induction n as [|n IH] using N.peano_ind; [right; lia|].
  destruct IH as [(i & j & A & B & C)|I]; [left; exists i, j; repeat split; (assumption || lia)|].
  assert (D : (exists i, i < n /\ key i = key n) \/ (forall i, i < n -> key i <> key n)).
  { clear I. generalize (key n). intros v. induction n as [|n IH] using N.peano_ind; [right; lia|].
    destruct IH as [(i & A & B)|I]; [left; exists i; split; (assumption || lia)|].
    destruct (N.eq_dec (key n) v) as [E|E]; [left; exists n; split; (assumption || lia)|].
    right. intros i Hi. destruct (N.eq_dec i n) as [->|F]; [exact E|apply I; lia]. }
  destruct D as [(i & A & B)|D]; [left; exists i, n; repeat split; (assumption || lia)|].
  right. intros i j Hi Hj E. destruct (N.eq_dec i n) as [->|F], (N.eq_dec j n) as [->|G]; [reflexivity| | |apply I; (assumption || lia)].
  - exfalso. apply (D j); [lia|now symmetry].
  - exfalso. apply (D i); [lia|assumption].
Qed.
Lemma pigeon (key : N -> N) c : (forall i, key i < c) -> exists i j, i < j /\ key i = key j.
Proof.
  intros B. destruct (repeats_or_not key (N.succ c)) as [(i & j & H & _ & E)|I]; [now exists i, j|].
  exfalso. assert (H := how_many_inj key c (N.succ c) (fun _ => true) (fun i _ _ => B i) (fun i j Hi Hj _ _ => I i j Hi Hj)).
  rewrite how_many_all in H by reflexivity. lia.
Qed.

(** ** Windows as numbers *)
Section Window.
  Variables (x : nat -> N) (w : N).
  Hypothesis Hx : forall k, x k < w.
  (** The words 1 to n after position k. *)
  Fixpoint window (n k : nat) : N := match n with O => 0 | S n => window n k * w + x (k + S n)%nat end.
  Lemma window_lt n k : window n k < w ^ N.of_nat n.
  Proof.
    induction n as [|n IH]; [cbn; lia|]. rewrite Nat2N.inj_succ, N.pow_succ_r'. cbn [window].
    specialize (Hx (k + S n)%nat).
    assert (window n k * w + w <= w ^ N.of_nat n * w); [|lia].
    replace (window n k * w + w) with (N.succ (window n k) * w) by lia. apply N.mul_le_mono_r. lia.
  Qed.
  Lemma window_inj n k l : window n k = window n l -> forall i, (1 <= i <= n)%nat -> x (k + i)%nat = x (l + i)%nat.
  Proof.
    induction n as [|n IH]; intros E i Hi; [lia|]. cbn [window] in E.
    assert (P := Hx (k + S n)%nat). assert (Q := Hx (l + S n)%nat).
    assert (D : window n k = window n l /\ x (k + S n)%nat = x (l + S n)%nat).
    { assert (A : (window n k * w + x (k + S n)%nat) / w = window n k).
      { rewrite N.add_comm, N.div_add by lia. rewrite N.div_small by exact P. reflexivity. }
      assert (B : (window n l * w + x (l + S n)%nat) / w = window n l).
      { rewrite N.add_comm, N.div_add by lia. rewrite N.div_small by exact Q. reflexivity. }
      rewrite E in A. rewrite A in B. split; [exact B|]. rewrite B in E. lia. }
    destruct D as [D1 D2]. destruct (Nat.eq_dec i (S n)) as [->|F]; [exact D2|]. apply IH; [exact D1|lia].
  Qed.
End Window.
Lemma head_inj c a a' b b' : b < c -> b' < c -> a * c + b = a' * c + b' -> a = a' /\ b = b'.
Proof.
  intros P Q E.
  assert (A : (a * c + b) / c = a). { rewrite N.add_comm, N.div_add by lia. rewrite N.div_small by exact P. reflexivity. }
  assert (B : (a' * c + b') / c = a'). { rewrite N.add_comm, N.div_add by lia. rewrite N.div_small by exact Q. reflexivity. }
  rewrite E in A. rewrite A in B. split; [exact B|]. subst. lia.
Qed.

(** ** Mersenne Twister *)
Definition half_odd (y : N) : N := if N.odd y then N.lxor (y / 2) 0x9908B0DF else y / 2.
Lemma half_odd_inj y y' : y < 2^32 -> y' < 2^32 -> half_odd y = half_odd y' -> y = y'.
Proof.
  intros H H' E.
  assert (T : forall z, z < 2^32 -> N.testbit (half_odd z) 31 = N.odd z).
  { intros z Hz. unfold half_odd.
    assert (B : N.testbit (z / 2) 31 = false).
    { assert (L : z / 2 < 2^31) by (apply N.div_lt_upper_bound; [discriminate|exact Hz]).
      destruct (N.eq_dec (z / 2) 0) as [->|F]; [reflexivity|].
      apply N.bits_above_log2. apply N.log2_lt_pow2; [lia|exact L]. }
    destruct (N.odd z); [|exact B]. rewrite N.lxor_spec, B. reflexivity. }
  assert (O : N.odd y = N.odd y') by (rewrite <- (T y H), <- (T y' H'), E; reflexivity).
  unfold half_odd in E. rewrite <- O in E.
  assert (D : y / 2 = y' / 2).
  { destruct (N.odd y); [|exact E].
    apply (f_equal (fun v => N.lxor v 0x9908B0DF)) in E. rewrite !N.lxor_assoc, !N.lxor_nilpotent, !N.lxor_0_r in E. exact E. }
  rewrite (N.div2_odd y), (N.div2_odd y'), !N.div2_div, O, D. reflexivity.
Qed.
Lemma joined_lt u v : (u / 2^31) mod 2 * 2^31 + v mod 2^31 < 2^32.
Proof.
  assert (A : (u / 2^31) mod 2 < 2) by (apply N.mod_lt; discriminate).
  assert (B : v mod 2^31 < 2^31) by (apply N.mod_lt; discriminate).
  change (2^31) with 2147483648 in *. change (2^32) with 4294967296. lia.
Qed.
Lemma twist_inj u v u' v' : mt19937_twist u v = mt19937_twist u' v' ->
  (u / 2^31) mod 2 = (u' / 2^31) mod 2 /\ v mod 2^31 = v' mod 2^31.
Proof.
  intros E. change (half_odd ((u / 2^31) mod 2 * 2^31 + v mod 2^31) = half_odd ((u' / 2^31) mod 2 * 2^31 + v' mod 2^31)) in E.
  apply half_odd_inj in E; [|apply joined_lt|apply joined_lt].
  apply head_inj in E; [exact E| |]; apply N.mod_lt; discriminate.
Qed.
Section MT.
  Variable x : nat -> N.
  Hypothesis Hr : linear_rec x.
  Hypothesis Hx : forall k, x k < 2^32.
  Lemma top_lt k : x k / 2^31 < 2.
  Proof. apply N.div_lt_upper_bound; [discriminate|]. exact (Hx k). Qed.
  Lemma top_mod k : (x k / 2^31) mod 2 = x k / 2^31.
  Proof. apply N.mod_small, top_lt. Qed.
  (** The state at k: the top bit of word k and the following words. *)
  Definition same (y : nat -> N) (k l : nat) : Prop :=
    x k / 2^31 = y l / 2^31 /\ forall i, (1 <= i <= 623)%nat -> x (k + i)%nat = y (l + i)%nat.
End MT.
Lemma same_back x y k l : linear_rec x -> linear_rec y -> (forall k, x k < 2^32) -> (forall k, y k < 2^32) ->
  same x y (S k) (S l) -> same x y k l.
Proof.
  intros Rx Ry Hx Hy [T W].
  assert (E : mt19937_twist (x k) (x (k + 1)%nat) = mt19937_twist (y l) (y (l + 1)%nat)).
  { pose proof (W 623%nat ltac:(lia)) as A. pose proof (W 396%nat ltac:(lia)) as B.
    replace (S k + 623)%nat with (k + 624)%nat in A by lia. replace (S l + 623)%nat with (l + 624)%nat in A by lia.
    replace (S k + 396)%nat with (k + 397)%nat in B by lia. replace (S l + 396)%nat with (l + 397)%nat in B by lia.
    rewrite (Rx k), (Ry l), B in A.
    apply (f_equal (N.lxor (y (l + 397)%nat))) in A. rewrite <- !N.lxor_assoc, !N.lxor_nilpotent, !N.lxor_0_l in A. exact A. }
  apply twist_inj in E as [E1 E2]. rewrite (top_mod x Hx), (top_mod y Hy) in E1. split; [exact E1|].
  intros i Hi. destruct (Nat.eq_dec i 1) as [->|F].
  - rewrite (N.div_mod (x (k + 1)%nat) (2^31)) by discriminate. rewrite (N.div_mod (y (l + 1)%nat) (2^31)) by discriminate.
    rewrite E2. replace (k + 1)%nat with (S k) by lia. replace (l + 1)%nat with (S l) by lia. rewrite T. reflexivity.
  - specialize (W (i - 1)%nat ltac:(lia)). replace (S k + (i - 1))%nat with (k + i)%nat in W by lia.
    replace (S l + (i - 1))%nat with (l + i)%nat in W by lia. exact W.
Qed.
Lemma same_back_n x y d : forall k l, linear_rec x -> linear_rec y -> (forall k, x k < 2^32) -> (forall k, y k < 2^32) ->
  same x y (d + k) (d + l) -> same x y k l.
Proof.
  induction d as [|d IH]; intros k l Rx Ry Hx Hy S; [exact S|]. apply (same_back x y k l Rx Ry Hx Hy).
  replace (Datatypes.S d + k)%nat with (d + Datatypes.S k)%nat in S by lia. replace (Datatypes.S d + l)%nat with (d + Datatypes.S l)%nat in S by lia.
  exact (IH _ _ Rx Ry Hx Hy S).
Qed.
Lemma same_forward x y k l : linear_rec x -> linear_rec y -> (forall k, x k < 2^32) -> (forall k, y k < 2^32) ->
  same x y k l -> forall i, x (k + 1 + i)%nat = y (l + 1 + i)%nat.
Proof.
  intros Rx Ry Hx Hy [T W]. apply words_go_on; [exact Rx|exact Ry|]. intros i Hi.
  destruct (Nat.eq_dec i 623) as [->|F].
  - replace (k + 1 + 623)%nat with (k + 624)%nat by lia. replace (l + 1 + 623)%nat with (l + 624)%nat by lia.
    rewrite (Rx k), (Ry l), (W 397%nat), (W 1%nat) by lia. unfold mt19937_twist. rewrite T. reflexivity.
  - specialize (W (1 + i)%nat ltac:(lia)). rewrite !Nat.add_assoc in W. exact W.
Qed.
Definition mt_key (n : nat) (x : nat -> N) (k : N) : N := x (N.to_nat k) / 2^31 * (2^32) ^ N.of_nat n + window x (2^32) n (N.to_nat k).
Lemma mt_key_lt n x : (forall k, x k < 2^32) -> forall k, mt_key n x k < 2 * (2^32) ^ N.of_nat n.
Proof.
  intros Hx k. unfold mt_key. pose proof (window_lt x (2^32) Hx n (N.to_nat k)) as W. pose proof (top_lt x Hx (N.to_nat k)) as T.
  set (W1 := window _ _ _ _) in *. set (p := (2^32) ^ N.of_nat n) in *. set (t := _ / 2^31) in *. clearbody W1 p t.
  assert (t = 0 \/ t = 1) as [-> | ->] by lia; lia.
Qed.
Lemma mt_key_same n x k l : (forall k, x k < 2^32) -> n = 623%nat -> mt_key n x k = mt_key n x l -> same x x (N.to_nat k) (N.to_nat l).
Proof.
  intros Hx Hn E. unfold mt_key in E. apply head_inj in E as [E1 E2]; [|now apply window_lt|now apply window_lt].
  split; [exact E1|]. rewrite <- Hn. exact (window_inj x (2^32) Hx n _ _ E2).
Qed.
Lemma mt_cycle_n n x : n = 623%nat -> linear_rec x -> (forall k, x k < 2^32) ->
  exists P, (0 < P)%nat /\ forall i, (1 <= i)%nat -> x (i + P)%nat = x i.
Proof.
  intros Hn R Hx. destruct (pigeon (mt_key n x) _ (mt_key_lt n x Hx)) as (i & j & L & E).
  apply (mt_key_same n x i j Hx Hn) in E.
  exists (N.to_nat j - N.to_nat i)%nat. split; [lia|].
  assert (S : same x x 0 (N.to_nat j - N.to_nat i)).
  { apply (same_back_n x x (N.to_nat i) 0 _ R R Hx Hx). rewrite Nat.add_0_r.
    replace (N.to_nat i + (N.to_nat j - N.to_nat i))%nat with (N.to_nat j) by lia. exact E. }
  intros k Hk. pose proof (same_forward x x _ _ R R Hx Hx S (k - 1)) as F.
  replace (0 + 1 + (k - 1))%nat with k in F by lia.
  replace (N.to_nat j - N.to_nat i + 1 + (k - 1))%nat with (k + (N.to_nat j - N.to_nat i))%nat in F by lia. now symmetry.
Qed.
Lemma mt_cycle x : linear_rec x -> (forall k, x k < 2^32) ->
  exists P, (0 < P)%nat /\ forall i, (1 <= i)%nat -> x (i + P)%nat = x i.
Proof. exact (mt_cycle_n 623 x eq_refl). Qed.
Lemma mt_alive seed x : MT19937 seed x -> forall p, exists i, (i < 624)%nat /\ x (p + i)%nat <> 0.
Proof.
  intros H p.
  assert (Hx : forall k, x k < 2^32) by exact (mt19937_lt seed x H).
  assert (R : linear_rec x) by exact (mt19937_rec seed x H).
  assert (D : (exists i, (i < 624)%nat /\ x (p + i)%nat <> 0) \/ forall i, (i < 624)%nat -> x (p + i)%nat = 0).
  { generalize 624%nat. intros n. induction n as [|n [(i & A & B)|I]]; [right; lia|left; exists i; split; (lia || assumption)|].
    destruct (N.eq_dec (x (p + n)%nat) 0) as [E|E].
    - right. intros i Hi. destruct (Nat.eq_dec i n) as [->|F]; [exact E|apply I; lia].
    - left. exists n. split; [lia|exact E]. }
  destruct D as [D|D]; [exact D|]. exfalso.
  assert (S : same x (fun _ => 0) p p).
  { split; [|intros i Hi; apply D; lia]. specialize (D 0%nat ltac:(lia)). rewrite Nat.add_0_r in D. now rewrite D. }
  assert (S0 : same x (fun _ => 0) 0 0).
  { apply (same_back_n x (fun _ => 0) p 0 0 R); [|exact Hx|reflexivity|rewrite Nat.add_0_r; exact S]. intros i. reflexivity. }
  destruct S0 as [_ W]. pose proof (W 1%nat ltac:(lia)) as E1. pose proof (W 2%nat ltac:(lia)) as E2. cbn [Nat.add] in E1, E2.
  pose proof (mt19937_init seed x H 1 ltac:(lia)) as E. rewrite E1, E2 in E. vm_compute in E. discriminate E.
Qed.

(** ** SFMT *)
Lemma recursion_inj a a' b c d : a < 2^128 -> a' < 2^128 -> sfmt_recursion a b c d = sfmt_recursion a' b c d -> a = a'.
Proof.
  intros Ha Ha' E.
  assert (S : forall n, n < 128 -> N.testbit a n = N.testbit a' n).
  { intros n. induction n as [n IH] using (well_founded_induction N.lt_wf_0). intros Hn.
    apply (f_equal (fun v => N.testbit v n)) in E. cbv beta in E. unfold sfmt_recursion in E.
    assert (M : forall u, N.testbit (u * 2^8 mod 2^128) n = if n <? 8 then false else N.testbit u (n - 8)).
    { intros u. rewrite N.mod_pow2_bits_low by lia. destruct (N.ltb_spec n 8).
      - now apply N.mul_pow2_bits_low.
      - now apply N.mul_pow2_bits_high. }
    rewrite (N.lxor_spec a), (N.lxor_spec a'), (N.lxor_spec (a * _ mod _)), (N.lxor_spec (a' * _ mod _)), !M in E.
    assert (K : (if n <? 8 then false else N.testbit a (n - 8)) = (if n <? 8 then false else N.testbit a' (n - 8))).
    { destruct (N.ltb_spec n 8); [reflexivity|]. apply IH; lia. }
    rewrite K in E. set (k := if n <? 8 then _ else _) in E. set (r := N.testbit (N.lxor _ _) n) in E. clearbody k r.
    destruct (N.testbit a n), (N.testbit a' n), k, r; now cbn in E. }
  rewrite <- (N.mod_small a (2^128)), <- (N.mod_small a' (2^128)) by assumption.
  apply N.bits_inj. intro n. destruct (N.lt_ge_cases n 128).
  - rewrite !N.mod_pow2_bits_low by assumption. now apply S.
  - now rewrite !N.mod_pow2_bits_high by assumption.
Qed.
Definition ssame (W V : nat -> N) (k l : nat) : Prop := forall i, (1 <= i <= 156)%nat -> W (k + i)%nat = V (l + i)%nat.
Lemma ssame_back W V k l : srec W -> srec V -> (forall k, W k < 2^128) -> (forall k, V k < 2^128) ->
  ssame W V (S k) (S l) -> ssame W V k l.
Proof.
  intros Rx Ry Hx Hy S.
  assert (G : forall i, (1 <= i <= 156)%nat -> W (k + 1 + i)%nat = V (l + 1 + i)%nat).
  { intros i Hi. specialize (S i Hi). replace (k + 1 + i)%nat with (Datatypes.S k + i)%nat by lia.
    replace (l + 1 + i)%nat with (Datatypes.S l + i)%nat by lia. exact S. }
  intros i Hi. destruct (Nat.eq_dec i 1) as [->|F].
  - pose proof (G 156%nat ltac:(lia)) as E. rewrite (Rx (k + 1)%nat), (Ry (l + 1)%nat) in E.
    rewrite (G 122%nat), (G 154%nat), (G 155%nat) in E by lia. apply recursion_inj in E; [exact E|apply Hx|apply Hy].
  - specialize (G (i - 1)%nat ltac:(lia)). replace (k + 1 + (i - 1))%nat with (k + i)%nat in G by lia.
    replace (l + 1 + (i - 1))%nat with (l + i)%nat in G by lia. exact G.
Qed.
Lemma ssame_back_n W V d : forall k l, srec W -> srec V -> (forall k, W k < 2^128) -> (forall k, V k < 2^128) ->
  ssame W V (d + k) (d + l) -> ssame W V k l.
Proof.
  induction d as [|d IH]; intros k l Rx Ry Hx Hy S; [exact S|]. apply (ssame_back W V k l Rx Ry Hx Hy).
  replace (Datatypes.S d + k)%nat with (d + Datatypes.S k)%nat in S by lia. replace (Datatypes.S d + l)%nat with (d + Datatypes.S l)%nat in S by lia.
  exact (IH _ _ Rx Ry Hx Hy S).
Qed.
Lemma sfmt_cycle_n n W : n = 156%nat -> srec W -> (forall k, W k < 2^128) ->
  exists P, (0 < P)%nat /\ forall i, (1 <= i)%nat -> W (i + P)%nat = W i.
Proof.
  intros Hn R Hx. destruct (pigeon (fun k => window W (2^128) n (N.to_nat k)) _ (fun k => window_lt W (2^128) Hx n (N.to_nat k))) as (i & j & L & E).
  assert (E' : ssame W W (N.to_nat i) (N.to_nat j)) by (unfold ssame; rewrite <- Hn; exact (window_inj W (2^128) Hx n _ _ E)).
  exists (N.to_nat j - N.to_nat i)%nat. split; [lia|].
  assert (S : ssame W W 0 (N.to_nat j - N.to_nat i)).
  { apply (ssame_back_n W W (N.to_nat i) 0 _ R R Hx Hx). rewrite Nat.add_0_r.
    replace (N.to_nat i + (N.to_nat j - N.to_nat i))%nat with (N.to_nat j) by lia. exact E'. }
  intros k Hk.
  assert (G : forall i0, (i0 < 156)%nat -> W (1 + i0)%nat = W (N.to_nat j - N.to_nat i + 1 + i0)%nat).
  { intros m Hm. specialize (S (1 + m)%nat ltac:(lia)). rewrite Nat.add_0_l, Nat.add_assoc in S. exact S. }
  pose proof (swords_go_on W W _ _ R R G (k - 1)) as F.
  replace (1 + (k - 1))%nat with k in F by lia.
  replace (N.to_nat j - N.to_nat i + 1 + (k - 1))%nat with (k + (N.to_nat j - N.to_nat i))%nat in F by lia. now symmetry.
Qed.
Lemma sfmt_cycle W : srec W -> (forall k, W k < 2^128) -> exists P, (0 < P)%nat /\ forall i, (1 <= i)%nat -> W (i + P)%nat = W i.
Proof. exact (sfmt_cycle_n 156 W eq_refl). Qed.
Lemma zero_srec : srec (fun _ => 0).
Proof. intros k. vm_compute. reflexivity. Qed.
Lemma sfmt_alive seed W : SFMT19937 seed W -> forall p, (1 <= p)%nat -> exists i, (i < 156)%nat /\ W (p + i)%nat <> 0.
Proof.
  intros H p Hp.
  assert (Hx : forall k, W k < 2^128) by exact (SFMT_lt seed W H).
  assert (R : srec W) by exact (sfmt19937_rec seed W H).
  assert (D : (exists i, (i < 156)%nat /\ W (p + i)%nat <> 0) \/ forall i, (i < 156)%nat -> W (p + i)%nat = 0).
  { generalize 156%nat. intros n. induction n as [|n [(i & A & B)|I]]; [right; lia|left; exists i; split; (lia || assumption)|].
    destruct (N.eq_dec (W (p + n)%nat) 0) as [E|E].
    - right. intros i Hi. destruct (Nat.eq_dec i n) as [->|F]; [exact E|apply I; lia].
    - left. exists n. split; [lia|exact E]. }
  destruct D as [D|D]; [exact D|]. exfalso.
  assert (S : ssame W (fun _ => 0) (p - 1) (p - 1)).
  { intros i Hi. specialize (D (i - 1)%nat ltac:(lia)). replace (p + (i - 1))%nat with (p - 1 + i)%nat in D by lia. exact D. }
  assert (S0 : ssame W (fun _ => 0) 0 0).
  { apply (ssame_back_n W (fun _ => 0) (p - 1) 0 0 R zero_srec Hx); [reflexivity|rewrite Nat.add_0_r; exact S]. }
  pose proof (S0 1%nat ltac:(lia)) as E1. cbn [Nat.add] in E1.
  destruct (sfmt19937_init seed W H) as (v & K & _ & V). rewrite (V 1%nat ltac:(lia)) in E1.
  unfold word128, of_lanes in E1. cbn [Nat.mul Nat.add] in E1.
  pose proof (knuth_next seed v K 4 ltac:(lia)) as E.
  assert (E4 : v 4%nat = 0) by lia. assert (E5 : v 5%nat = 0) by lia.
  rewrite E4, E5 in E. vm_compute in E. discriminate E.
Qed.

(** ** Objects *)
Lemma mt_output_at m junk seed k : length junk = 624%nat ->
  mt_output_no m (mt_new junk seed) k = OVal (mt19937_temper (mt19937_seq seed (624 + k)%nat)).
Proof.
  intros L. unfold mt_output_no, mt_outputs_of.
  rewrite (outputs_at (mt19937_seq seed) (mt19937_rec _ _ (mt19937_exists seed)) m (S k) _ 624).
  - rewrite (nth_indep _ ONone (OVal (mt19937_temper (mt19937_seq seed (624 + 0)%nat)))) by (rewrite map_length, seq_length; lia).
    rewrite (map_nth (fun i => OVal (mt19937_temper (mt19937_seq seed (624 + i)%nat))) (seq 0 (S k)) 0%nat k).
    rewrite seq_nth by lia. reflexivity.
  - apply new_at_word; [apply mt19937_exists|exact L].
Qed.
Lemma mt_outputs_cycle seed : exists P, (0 < P)%nat /\ forall m junk k, length junk = 624%nat ->
  mt_output_no m (mt_new junk seed) (k + P) = mt_output_no m (mt_new junk seed) k.
Proof.
  destruct (mt_cycle (mt19937_seq seed) (mt19937_rec _ _ (mt19937_exists seed)) (mt19937_lt _ _ (mt19937_exists seed))) as (P & HP & C).
  exists P. split; [exact HP|]. intros m junk k L. rewrite !mt_output_at by exact L. do 2 f_equal.
  rewrite Nat.add_assoc. apply C. lia.
Qed.
Lemma mt_outputs_alive m junk seed k : length junk = 624%nat ->
  exists i, (i < 624)%nat /\ mt_output_no m (mt_new junk seed) (k + i) <> OVal 0.
Proof.
  intros L. destruct (mt_alive seed _ (mt19937_exists seed) (624 + k)) as (i & Hi & E).
  exists i. split; [exact Hi|]. rewrite mt_output_at by exact L. intros F. apply E.
  assert (I : forall a b, OVal a = OVal b -> a = b) by (intros a b Q; injection Q; trivial). apply I in F.
  apply temper_inj. rewrite Nat.add_assoc in F. rewrite F. reflexivity.
Qed.
Lemma sfmt_output_at m junk seed k : length junk = 624%nat ->
  sfmt_output_no m (sfmt_new junk seed) k = OVal (half64 (sfmt_seq seed) (312 + k)).
Proof.
  intros L. unfold sfmt_output_no.
  rewrite (sfmt_outputs_at (sfmt_seq seed) (sfmt19937_rec _ _ (sfmt_exists seed)) (SFMT_lt _ _ (sfmt_exists seed)) m (S k) _ 312).
  - rewrite (nth_indep _ ONone (OVal (half64 (sfmt_seq seed) (312 + 0)))) by (rewrite map_length, seq_length; lia).
    rewrite (map_nth (fun i => OVal (half64 (sfmt_seq seed) (312 + i))) (seq 0 (S k)) 0%nat k).
    rewrite seq_nth by lia. reflexivity.
  - apply new_sat; [apply sfmt_exists|exact L].
Qed.
Lemma sfmt_outputs_cycle seed : exists P, (0 < P)%nat /\ forall m junk k, length junk = 624%nat ->
  sfmt_output_no m (sfmt_new junk seed) (k + P) = sfmt_output_no m (sfmt_new junk seed) k.
Proof.
  destruct (sfmt_cycle (sfmt_seq seed) (sfmt19937_rec _ _ (sfmt_exists seed)) (SFMT_lt _ _ (sfmt_exists seed))) as (P & HP & C).
  exists (2 * P)%nat. split; [lia|]. intros m junk k L. rewrite !sfmt_output_at by exact L. f_equal.
  rewrite Nat.add_assoc. set (q := (312 + k)%nat). assert (Hq : (2 <= q)%nat) by (unfold q; lia). clearbody q.
  destruct (Nat.Even_or_Odd q) as [[h ->]|[h ->]].
  - replace (2 * h + 2 * P)%nat with (2 * (h + P))%nat by lia. rewrite !half64_low, C by lia. reflexivity.
  - replace (2 * h + 1 + 2 * P)%nat with (S (2 * (h + P))) by lia. replace (2 * h + 1)%nat with (S (2 * h)) by lia.
    rewrite !half64_high, C by lia. reflexivity.
Qed.
Lemma sfmt_outputs_alive m junk seed k : length junk = 624%nat ->
  exists i, (i < 313)%nat /\ sfmt_output_no m (sfmt_new junk seed) (k + i) <> OVal 0.
Proof.
  intros L.
  assert (H : exists h d, (2 * h = 312 + k + d /\ d < 2)%nat).
  { destruct (Nat.Even_or_Odd (312 + k)) as [[h E]|[h E]]; [exists h, 0%nat|exists (S h), 1%nat]; lia. }
  destruct H as (h & d & E & Hd).
  destruct (sfmt_alive seed _ (sfmt_exists seed) h ltac:(lia)) as (i & Hi & F).
  set (W := sfmt_seq seed) in *.
  assert (I : forall a b, OVal a = OVal b -> a = b) by (intros a b Q; injection Q; trivial).
  destruct (N.eq_dec (half64 W (2 * (h + i))) 0) as [Z|Z].
  - destruct (N.eq_dec (half64 W (S (2 * (h + i)))) 0) as [Y|Y].
    + exfalso. apply F. rewrite half64_low in Z. rewrite half64_high in Y.
      rewrite (N.div_mod (W (h + i)%nat) (2^64)), Z, Y by discriminate. reflexivity.
    + exists (d + 2 * i + 1)%nat. split; [lia|]. rewrite sfmt_output_at by exact L. intros Q. apply I in Q. apply Y.
      replace (S (2 * (h + i))) with (312 + (k + (d + 2 * i + 1)))%nat by lia. exact Q.
  - exists (d + 2 * i)%nat. split; [lia|]. rewrite sfmt_output_at by exact L. intros Q. apply I in Q. apply Z.
    replace (2 * (h + i))%nat with (312 + (k + (d + 2 * i)))%nat by lia. exact Q.
Qed.
