(** One bit of each state of a linear engine over GF(2), seen as often as the state has
    bits, gives the state. Library only: nothing here models code in /repo. *)
From Coq Require Import NArith List Bool Lia.
From Verif Require Import Base.Word Base.WordLemmas Proofs.GF2 Proofs.GF2Period.
Import ListNotations.
Ltac Zify.zify_post_hook ::= idtac.
Open Scope N_scope.

Section Observe.
  Variable T : N -> N.
  Variable P n : N.
  Hypothesis Tlin : linear T.
  Hypothesis Tbound : forall x, x < 2 ^ n -> T x < 2 ^ n.
  Hypothesis annihilated : forall v, v < 2 ^ n -> ev T P v = 0.
  Hypothesis degree : N.lxor P (2 ^ n) < 2 ^ n.
  Hypothesis one_cycle : forall x y, x < 2 ^ n -> x <> 0 -> y < 2 ^ n -> y <> 0 -> exists i, N.iter i T x = y.
  (** What is seen of a state, not always [false]. *)
  Variable lam : N -> bool.
  Hypothesis lam_lin : forall x y, lam (N.lxor x y) = xorb (lam x) (lam y).
  Variable e : N.
  Hypothesis e_lt : e < 2 ^ n.
  Hypothesis e_seen : lam e = true.

  Lemma lam_0 : lam 0 = false.
  Proof. pose proof (lam_lin 0 0) as H. rewrite N.lxor_0_l in H. destruct (lam 0); [discriminate|reflexivity]. Qed.

  Lemma iter_T_lin i : linear (N.iter i T).
  Proof.
    induction i as [|i IH] using N.peano_ind; intros x y; [reflexivity|].
    now rewrite !Niter_succ, IH, Tlin.
  Qed.
  Lemma iter_T_bound i x : x < 2 ^ n -> N.iter i T x < 2 ^ n.
  Proof. intros H. apply (Niter_inv (fun v => v < 2 ^ n)); [intros v Hv; now apply Tbound|exact H]. Qed.

  Lemma lam_ev q : forall d v, q < 2 ^ d -> (forall i, i < d -> lam (N.iter i T v) = false) -> lam (ev T q v) = false.
  Proof.
    induction q as [|q IH|q IH] using N.binary_ind; intros d v Hq H.
    - exact lam_0.
    - rewrite (ev_double T Tlin), <- (ev_T T Tlin). destruct (N.eq_dec q 0) as [->|Q]; [exact lam_0|].
      assert (0 < d) by (destruct (N.eq_dec d 0) as [->|]; [|lia]; rewrite N.double_spec in Hq; change (2 ^ 0) with 1 in Hq; lia).
      apply (IH (N.pred d)).
      + replace d with (N.succ (N.pred d)) in Hq by lia. rewrite N.pow_succ_r', N.double_spec in Hq. lia.
      + intros i Hi. rewrite <- Niter_succ_r. apply H. lia.
    - rewrite (ev_succ_double T Tlin), <- (ev_T T Tlin), lam_lin.
      assert (0 < d) by (destruct (N.eq_dec d 0) as [->|]; [|lia]; rewrite N.succ_double_spec in Hq; change (2 ^ 0) with 1 in Hq; lia).
      rewrite (IH (N.pred d)).
      + pose proof (H 0 ltac:(lia)) as Hz. change (N.iter 0 T v) with v in Hz. now rewrite Hz.
      + replace d with (N.succ (N.pred d)) in Hq by lia. rewrite N.pow_succ_r', N.succ_double_spec in Hq. lia.
      + intros i Hi. rewrite <- Niter_succ_r. apply H. lia.
  Qed.
  Lemma ev_pow2 d v : ev T (2 ^ d) v = N.iter d T v.
  Proof.
    induction d as [|d IH] using N.peano_ind; [reflexivity|].
    rewrite N.pow_succ_r', <- N.double_spec, (ev_double T Tlin), IH. now rewrite Niter_succ.
  Qed.

  Lemma unseen_for_ever x : x < 2 ^ n -> (forall i, i < n -> lam (N.iter i T x) = false) ->
    forall i, lam (N.iter i T x) = false.
  Proof.
    intros Hx H i. induction i as [i IH] using (well_founded_induction N.lt_wf_0).
    destruct (N.lt_ge_cases i n) as [L|L]; [now apply H|].
    replace i with (n + (i - n)) by lia. rewrite Niter_add. set (v := N.iter (i - n) T x).
    assert (Hv : v < 2 ^ n) by now apply iter_T_bound.
    rewrite <- ev_pow2.
    assert (E : ev T (2 ^ n) v = ev T (N.lxor P (2 ^ n)) v).
    { rewrite (ev_lxor T Tlin), (annihilated v Hv). now rewrite N.lxor_0_l. }
    rewrite E. apply (lam_ev _ n); [exact degree|].
    intros k Hk. unfold v. rewrite <- Niter_add. apply IH. lia.
  Qed.

  Theorem unseen_is_zero x : x < 2 ^ n -> (forall i, i < n -> lam (N.iter i T x) = false) -> x = 0.
  Proof.
    intros Hx H. destruct (N.eq_dec x 0) as [E|E]; [exact E|]. exfalso.
    assert (E0 : e <> 0) by (intros ->; rewrite lam_0 in e_seen; discriminate).
    destruct (one_cycle x e Hx E e_lt E0) as [i Hi].
    pose proof (unseen_for_ever x Hx H i) as U. rewrite Hi, e_seen in U. discriminate.
  Qed.

  Theorem seen_gives_state x y : x < 2 ^ n -> y < 2 ^ n ->
    (forall i, i < n -> lam (N.iter i T x) = lam (N.iter i T y)) -> x = y.
  Proof.
    intros Hx Hy H. apply N.lxor_eq. apply unseen_is_zero; [now apply lxor_lt|].
    intros i Hi. rewrite iter_T_lin, lam_lin, (H i Hi). apply xorb_nilpotent.
  Qed.
End Observe.
