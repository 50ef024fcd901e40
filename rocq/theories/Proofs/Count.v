(** Lemmas about counting, and the pigeonhole argument for frequencies. *)
From Coq Require Import NArith List Lia Bool.
From Verif Require Import Spec.CountSpec.
Import ListNotations.
Open Scope N_scope.

Lemma how_many_0 p : how_many p 0 = 0.
Proof. reflexivity. Qed.
Lemma how_many_succ p n : how_many p (N.succ n) = if p n then N.succ (how_many p n) else how_many p n.
Proof. unfold how_many. rewrite N.recursion_succ; [reflexivity|reflexivity|]. intros ? ? -> ? ? ->. reflexivity. Qed.

Lemma how_many_ext p q n : (forall i, i < n -> p i = q i) -> how_many p n = how_many q n.
Proof.
  induction n using N.peano_ind; intros H; [reflexivity|].
  rewrite !how_many_succ, (H n) by lia. rewrite IHn; [reflexivity|]. intros i Hi. apply H. lia.
Qed.
Lemma how_many_none p n : (forall i, i < n -> p i = false) -> how_many p n = 0.
Proof.
  induction n using N.peano_ind; intros H; [reflexivity|].
  rewrite how_many_succ, (H n) by lia. apply IHn. intros i Hi. apply H. lia.
Qed.
Lemma how_many_all p n : (forall i, i < n -> p i = true) -> how_many p n = n.
Proof.
  induction n using N.peano_ind; intros H; [reflexivity|].
  rewrite how_many_succ, (H n) by lia. rewrite IHn; [reflexivity|]. intros i Hi. apply H. lia.
Qed.
Lemma how_many_le p n : how_many p n <= n.
Proof. induction n using N.peano_ind; [now rewrite how_many_0|]. rewrite how_many_succ. destruct (p n); lia. Qed.
Lemma how_many_split p q n : how_many p n = how_many (fun i => p i && q i) n + how_many (fun i => p i && negb (q i)) n.
Proof. induction n using N.peano_ind; [reflexivity|]. rewrite !how_many_succ. destruct (p n), (q n); cbn; lia. Qed.
Lemma how_many_one n v : v < n -> how_many (fun i => i =? v) n = 1.
Proof.
  induction n using N.peano_ind; intros H; [lia|]. rewrite how_many_succ.
  destruct (N.eqb_spec n v) as [->|E].
  - rewrite how_many_none; [reflexivity|]. intros i Hi. apply N.eqb_neq. lia.
  - apply IHn. lia.
Qed.
Lemma how_many_ge1 p n i : i < n -> p i = true -> 1 <= how_many p n.
Proof.
  induction n using N.peano_ind; intros H E; [lia|]. rewrite how_many_succ.
  destruct (N.eqb_spec n i) as [->|F]; [rewrite E; lia|]. enough (1 <= how_many p n) by (destruct (p n); lia).
  apply IHn; [lia|exact E].
Qed.

(** At most [c] indices go injectively into [0, c). *)
Lemma how_many_inj (key : N -> N) c : forall n p,
  (forall i, i < n -> p i = true -> key i < c) ->
  (forall i j, i < n -> j < n -> p i = true -> p j = true -> key i = key j -> i = j) ->
  how_many p n <= c.
Proof.
  induction c using N.peano_ind; intros n p B I.
  - rewrite how_many_none; [lia|]. intros i Hi. destruct (p i) eqn:E; [|reflexivity].
    specialize (B i Hi E). lia.
  - rewrite (how_many_split p (fun i => key i =? c)).
    assert (H1 : how_many (fun i => p i && (key i =? c)) n <= 1).
    { clear IHc. revert B I. induction n using N.peano_ind; intros B I; [rewrite how_many_0; lia|].
      rewrite how_many_succ. destruct (p n && (key n =? c)) eqn:E.
      - rewrite how_many_none; [lia|]. intros i Hi. destruct (p i && (key i =? c)) eqn:F; [|reflexivity].
        apply andb_prop in E as [E1 E2]. apply andb_prop in F as [F1 F2].
        apply N.eqb_eq in E2, F2. assert (i = n); [|lia]. apply I; [lia|lia|assumption|assumption|congruence].
      - apply IHn; intros; [apply B|apply I]; auto; lia. }
    assert (H2 : how_many (fun i => p i && negb (key i =? c)) n <= c).
    { apply IHc.
      - intros i Hi E. apply andb_prop in E as [E1 E2]. apply negb_true_iff, N.eqb_neq in E2.
        specialize (B i Hi E1). lia.
      - intros i j Hi Hj E F. apply andb_prop in E as [E1 E2]. apply andb_prop in F as [F1 F2]. apply I; assumption. }
    lia.
Qed.

(** Sums over v below M. *)
Definition total (c : N -> N) (M : N) : N := N.recursion 0 (fun v s => s + c v) M.
Lemma total_succ c M : total c (N.succ M) = total c M + c M.
Proof. unfold total. rewrite N.recursion_succ; [reflexivity|reflexivity|]. intros ? ? -> ? ? ->. reflexivity. Qed.
Lemma total_ext c d M : (forall v, v < M -> c v = d v) -> total c M = total d M.
Proof.
  induction M using N.peano_ind; intros H; [reflexivity|].
  rewrite !total_succ, (H M), IHM by (intros; try apply H; lia). reflexivity.
Qed.
Lemma total_0 M : total (fun _ => 0) M = 0.
Proof. induction M using N.peano_ind; [reflexivity|]. rewrite total_succ, IHM. reflexivity. Qed.
Lemma total_add c d M : total (fun v => c v + d v) M = total c M + total d M.
Proof. induction M using N.peano_ind; [reflexivity|]. rewrite !total_succ, IHM. lia. Qed.
Lemma total_one M w : w < M -> total (fun v => if w =? v then 1 else 0) M = 1.
Proof.
  induction M using N.peano_ind; intros H; [lia|]. rewrite total_succ.
  destruct (N.eqb_spec w M) as [->|E].
  - rewrite (total_ext _ (fun _ => 0)); [rewrite total_0; reflexivity|].
    intros v Hv. assert (F : (M =? v) = false) by (apply N.eqb_neq; lia). rewrite F. reflexivity.
  - rewrite IHM by lia. reflexivity.
Qed.
Lemma total_if (p : N -> bool) c M : total (fun v => if p v then c else 0) M = c * how_many p M.
Proof.
  induction M using N.peano_ind; [rewrite how_many_0; cbn; lia|].
  rewrite total_succ, how_many_succ, IHM. destruct (p M); lia.
Qed.
(** Counting by value. *)
Lemma how_many_by_value p (out : N -> N) M n : (forall i, i < n -> out i < M) ->
  how_many (fun i => p (out i)) n = total (fun v => if p v then how_many (fun i => out i =? v) n else 0) M.
Proof.
  induction n using N.peano_ind; intros H.
  - rewrite how_many_0. rewrite (total_ext _ (fun _ => 0)), total_0; [reflexivity|]. intros v _. now destruct (p v).
  - rewrite how_many_succ, IHn by (intros; apply H; lia).
    rewrite (total_ext (fun v => if p v then how_many (fun i => out i =? v) (N.succ n) else 0)
      (fun v => (if p v then how_many (fun i => out i =? v) n else 0) + (if p (out n) then if out n =? v then 1 else 0 else 0))).
    + rewrite total_add. destruct (p (out n)).
      * rewrite total_one by (apply H; lia). lia.
      * rewrite total_0. lia.
    + intros v Hv. rewrite how_many_succ. destruct (N.eqb_spec (out n) v) as [->|E].
      * destruct (p v); lia.
      * destruct (p v), (p (out n)); lia.
Qed.
Lemma total_le_eq c d M : (forall v, v < M -> c v <= d v) -> total c M = total d M -> forall v, v < M -> c v = d v.
Proof.
  induction M using N.peano_ind; intros H E v Hv; [lia|]. rewrite !total_succ in E.
  assert (L : total c M <= total d M).
  { clear E IHM v Hv. induction M using N.peano_ind; [reflexivity|]. rewrite !total_succ.
    assert (A := H M ltac:(lia)).
    assert (total c M <= total d M) by (apply IHM; intros; apply H; lia). lia. }
  assert (A := H M ltac:(lia)).
  destruct (N.eq_dec v M) as [->|F]; [lia|]. apply IHM; [intros; apply H; lia|lia|lia].
Qed.
Lemma total_const c M : total (fun _ => c) M = c * M.
Proof. induction M using N.peano_ind; [cbn; lia|]. rewrite total_succ, IHM. lia. Qed.

(** n indices that are told apart by a value below M and a key below c take each value
    equally often, if there are M c of them. *)
Lemma equally_often (out key : N -> N) (n M c : N) :
  (forall i, i < n -> out i < M) -> (forall i, i < n -> key i < c) ->
  (forall i j, i < n -> j < n -> out i = out j -> key i = key j -> i = j) -> n = M * c ->
  forall v, v < M -> how_many (fun i => out i =? v) n = c.
Proof.
  intros A B I E v Hv.
  refine (total_le_eq (fun v => how_many (fun i => out i =? v) n) (fun _ => c) M _ _ v Hv).
  - intros w _. apply (how_many_inj key).
    + intros i Hi _. now apply B.
    + intros i j Hi Hj Pi Pj. apply N.eqb_eq in Pi, Pj. intros F. apply I; congruence.
  - rewrite total_const.
    assert (X := how_many_by_value (fun _ => true) out M n A). cbn iota in X. rewrite <- X.
    rewrite how_many_all by reflexivity. lia.
Qed.
(** The same without the combination 0, 0. *)
Lemma almost_equally_often (out key : N -> N) (n M c : N) :
  (forall i, i < n -> out i < M) -> (forall i, i < n -> key i < c) ->
  (forall i j, i < n -> j < n -> out i = out j -> key i = key j -> i = j) ->
  (forall i, i < n -> out i = 0 -> key i = 0 -> False) -> n + 1 = M * c ->
  forall v, v < M -> how_many (fun i => out i =? v) n = if v =? 0 then c - 1 else c.
Proof.
  intros A B I Z E v Hv.
  set (ext := fun (f : N -> N) i => if i =? n then 0 else f i).
  assert (X : how_many (fun i => ext out i =? v) (n + 1) = c).
  { apply (equally_often (ext out) (ext key) (n + 1) M c); [| | |exact E|exact Hv]; unfold ext.
    - intros i Hi. destruct (N.eqb_spec i n); [nia|apply A; lia].
    - intros i Hi. destruct (N.eqb_spec i n); [nia|apply B; lia].
    - intros i j Hi Hj. destruct (N.eqb_spec i n), (N.eqb_spec j n); intros; [lia| | |].
      + exfalso. apply (Z j); [lia|easy|easy].
      + exfalso. apply (Z i); [lia|easy|easy].
      + apply I; [lia|lia|easy|easy]. }
  rewrite N.add_1_r, how_many_succ in X.
  assert (Y : how_many (fun i => ext out i =? v) n = how_many (fun i => out i =? v) n).
  { apply how_many_ext. intros i Hi. unfold ext. destruct (N.eqb_spec i n); [lia|reflexivity]. }
  rewrite Y in X. unfold ext at 1 in X. rewrite N.eqb_refl in X.
  rewrite (N.eqb_sym v 0). destruct (0 =? v); lia.
Qed.
(** What is computed from the value. *)
Lemma function_of_value (p : N -> bool) (out : N -> N) (n M c : N) :
  (forall i, i < n -> out i < M) -> (forall v, v < M -> how_many (fun i => out i =? v) n = c) ->
  how_many (fun i => p (out i)) n = c * how_many p M.
Proof.
  intros A H. rewrite (how_many_by_value p out M n A), <- total_if. apply total_ext.
  intros v Hv. now rewrite H.
Qed.

(** Remainders and quotients below n. *)
Lemma count_mod m v n : 0 < m -> v < m -> how_many (fun h => h mod m =? v) n = (n + (m - 1 - v)) / m.
Proof.
  intros Hm Hv. induction n using N.peano_ind.
  - rewrite how_many_0. symmetry. apply N.div_small. lia.
  - rewrite how_many_succ, IHn.
    assert (D := N.div_mod n m ltac:(lia)). assert (L := N.mod_lt n m ltac:(lia)).
    set (q := n / m) in *. set (r := n mod m) in *.
    assert (Q1 : (n + (m - 1 - v)) / m = if v <? r then q + 1 else q).
    { destruct (N.ltb_spec v r); symmetry.
      - apply (N.div_unique _ _ _ (r - 1 - v)); nia.
      - apply (N.div_unique _ _ _ (r + (m - 1 - v))); nia. }
    assert (Q2 : (N.succ n + (m - 1 - v)) / m = if v <? r + 1 then q + 1 else q).
    { destruct (N.ltb_spec v (r + 1)); symmetry.
      - apply (N.div_unique _ _ _ (r - v)); nia.
      - apply (N.div_unique _ _ _ (r + 1 + (m - 1 - v))); nia. }
    rewrite Q1, Q2. destruct (N.eqb_spec r v), (N.ltb_spec v r), (N.ltb_spec v (r + 1)); lia.
Qed.
Lemma count_below n k : how_many (fun h => h <? k) n = N.min k n.
Proof.
  induction n using N.peano_ind; [rewrite how_many_0; lia|]. rewrite how_many_succ, IHn.
  destruct (N.ltb_spec n k); lia.
Qed.
Lemma count_div q v n : 0 < q -> how_many (fun h => h / q =? v) n = N.min n (q * (v + 1)) - N.min n (q * v).
Proof.
  intros Hq. rewrite N.mul_add_distr_l, N.mul_1_r. induction n using N.peano_ind; [rewrite how_many_0; lia|].
  rewrite how_many_succ, IHn.
  assert (D := N.div_mod n q ltac:(lia)). assert (L := N.mod_lt n q ltac:(lia)).
  destruct (N.eqb_spec (n / q) v) as [E|E].
  - rewrite E in D. set (a := q * v) in *. set (r := n mod q) in *. clearbody a r. lia.
  - assert (n < q * v \/ q * v + q <= n).
    { destruct (N.lt_gt_cases (n / q) v) as [X _]. destruct (X E) as [F|F].
      - left. assert (X1 : q * N.succ (n / q) <= q * v) by (apply N.mul_le_mono_l; lia). rewrite N.mul_succ_r in X1. lia.
      - right. assert (X1 : q * N.succ v <= q * (n / q)) by (apply N.mul_le_mono_l; lia). rewrite N.mul_succ_r in X1.
        eapply N.le_trans; [exact X1|]. apply N.mul_div_le. lia. }
    set (a := q * v) in *. clearbody a. lia.
Qed.
