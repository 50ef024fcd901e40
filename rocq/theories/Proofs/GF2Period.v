(** Full period of a linear engine over GF(2), from an annihilating polynomial of
    order 2^n - 1. Library only: nothing here models code in /repo. *)
From Coq Require Import NArith ZArith List Bool Lia Znumtheory.
From Coq Require Import ZifyBool ZifyNat ZifyN.
From Verif Require Import Base.Word Base.WordLemmas Proofs.GF2 Proofs.Orbit.
Import ListNotations.
Open Scope N_scope.
Ltac Zify.zify_post_hook ::= idtac.

Section Period.
  Variable T : N -> N.
  Variable P : N.
  Variable n : N.
  Hypothesis Tlin : linear T.

  (** [ev q v] = sum of T^i v over the set bits i of q. *)
  Fixpoint evp (q : positive) (v : N) : N :=
    match q with
    | xH => v
    | xO q => T (evp q v)
    | xI q => N.lxor v (T (evp q v))
    end.
  Definition ev (q v : N) : N := match q with 0 => 0 | Npos q => evp q v end.

  Lemma ev_double q v : ev (N.double q) v = T (ev q v).
  Proof. destruct q; cbn; [now rewrite (linear_0 T Tlin)|reflexivity]. Qed.
  Lemma ev_succ_double q v : ev (N.succ_double q) v = N.lxor v (T (ev q v)).
  Proof. destruct q; cbn; [now rewrite (linear_0 T Tlin), N.lxor_0_r|reflexivity]. Qed.

  Lemma lxor_dd a b : N.lxor (N.double a) (N.double b) = N.double (N.lxor a b).
  Proof. destruct a, b; reflexivity. Qed.
  Lemma lxor_ds a b : N.lxor (N.double a) (N.succ_double b) = N.succ_double (N.lxor a b).
  Proof. destruct a as [|[]], b as [|[]]; reflexivity. Qed.
  Lemma lxor_ss a b : N.lxor (N.succ_double a) (N.succ_double b) = N.double (N.lxor a b).
  Proof. destruct a, b; reflexivity. Qed.

  Lemma ev_lxor v a : forall b, ev (N.lxor a b) v = N.lxor (ev a v) (ev b v).
  Proof.
    induction a as [|a IH|a IH] using N.binary_ind; intros b.
    - now rewrite N.lxor_0_l.
    - destruct b as [|b _|b _] using N.binary_ind.
      + now rewrite !N.lxor_0_r.
      + rewrite lxor_dd, !ev_double, IH. apply Tlin.
      + rewrite lxor_ds, ev_double, !ev_succ_double, IH, Tlin.
        rewrite <- !N.lxor_assoc. f_equal. apply N.lxor_comm.
    - destruct b as [|b _|b _] using N.binary_ind.
      + now rewrite !N.lxor_0_r.
      + rewrite N.lxor_comm, lxor_ds, ev_double, !ev_succ_double, (N.lxor_comm b), IH, Tlin.
        now rewrite N.lxor_assoc.
      + rewrite lxor_ss, ev_double, !ev_succ_double, IH, Tlin, xor4.
        now rewrite N.lxor_nilpotent, N.lxor_0_l.
  Qed.

  Lemma ev_linear q : linear (ev q).
  Proof.
    induction q as [|q IH|q IH] using N.binary_ind; intros x y.
    - reflexivity.
    - now rewrite !ev_double, IH, Tlin.
    - rewrite !ev_succ_double, IH, Tlin. apply xor4.
  Qed.

  Lemma ev_T q v : ev q (T v) = T (ev q v).
  Proof.
    induction q as [|q IH|q IH] using N.binary_ind.
    - cbn. now rewrite (linear_0 T Tlin).
    - now rewrite !ev_double, IH.
    - now rewrite !ev_succ_double, IH, Tlin.
  Qed.

  (** Polynomials modulo P. *)
  Definition xt (q : N) : N :=
    let s := N.double q in if N.testbit s n then N.lxor s P else s.
  Fixpoint mulp (a : positive) (b : N) : N :=
    match a with
    | xH => b
    | xO a => xt (mulp a b)
    | xI a => N.lxor b (xt (mulp a b))
    end.
  Definition mulm (a b : N) : N := match a with 0 => 0 | Npos a => mulp a b end.
  Fixpoint powm (a : N) (e : positive) : N :=
    match e with
    | xH => a
    | xO e => let r := powm a e in mulm r r
    | xI e => let r := powm a e in mulm a (mulm r r)
    end.

  Section Vec.
    Variable v : N.
    Hypothesis Pv : ev P v = 0.

    Lemma ev_xt q : ev (xt q) v = T (ev q v).
    Proof.
      unfold xt. destruct (N.testbit (N.double q) n).
      - now rewrite ev_lxor, Pv, N.lxor_0_r, ev_double.
      - apply ev_double.
    Qed.
    Lemma ev_mulm a b : ev (mulm a b) v = ev a (ev b v).
    Proof.
      destruct a as [|a]; [reflexivity|]. cbn [mulm ev].
      induction a as [a IH|a IH|]; cbn [mulp evp].
      - now rewrite ev_lxor, ev_xt, IH.
      - now rewrite ev_xt, IH.
      - reflexivity.
    Qed.
  End Vec.

  Lemma ev_comm a b v : ev a (ev b v) = ev b (ev a v).
  Proof.
    induction a as [|a IH|a IH] using N.binary_ind.
    - cbn. symmetry. apply linear_0, ev_linear.
    - now rewrite !ev_double, ev_T, IH.
    - rewrite !ev_succ_double, (ev_linear b), ev_T, IH. reflexivity.
  Qed.

  Lemma ev_zero q : ev q 0 = 0.
  Proof. apply linear_0, ev_linear. Qed.

  Lemma ev_powx v e : ev P v = 0 -> ev (powm 2 e) v = N.iter (Npos e) T v.
  Proof.
    revert v. induction e as [e IH|e IH|]; intros v Pv; cbn [powm].
    - rewrite ev_mulm, ev_mulm by assumption. change (ev 2 ?x) with (T x).
      assert (Pv' : ev P (ev (powm 2 e) v) = 0) by (rewrite ev_comm, Pv; apply ev_zero).
      rewrite (IH _ Pv'), (IH _ Pv), <- Niter_add.
      replace (Npos e~1) with (N.succ (Npos e + Npos e)) by lia. now rewrite Niter_succ.
    - rewrite ev_mulm by assumption.
      assert (Pv' : ev P (ev (powm 2 e) v) = 0) by (rewrite ev_comm, Pv; apply ev_zero).
      rewrite (IH _ Pv'), (IH _ Pv), <- Niter_add. f_equal. lia.
    - reflexivity.
  Qed.

  (** The certificate: order of x modulo P is M. *)
  Variable k : nat.
  Hypothesis nk : n = N.of_nat k.
  Variable Mp : positive.
  Let M := Npos Mp.
  Hypothesis HM : N.succ M = 2 ^ n.
  Hypothesis Tbound : forall x, x < 2 ^ n -> T x < 2 ^ n.
  Hypothesis annih : forallb (fun c => c =? 0) (mat k (ev P)) = true.
  Hypothesis order : powm 2 Mp =? 1 = true.
  Variable ps : list Z.
  Hypothesis Hps : forall p, In p ps -> prime p.
  Hypothesis Hfac : factors_ok (Zpos Mp) ps = true.
  Variable inv : N -> N.
  Definition coprime_at (p : Z) : bool :=
    match N.div (Npos Mp) (Z.to_N p) with
    | 0 => false
    | Npos e => let c := N.lxor (powm 2 e) 1 in mulm (inv c) c =? 1
    end.
  Hypothesis Hcop : forallb coprime_at ps = true.

  Lemma annihilates v : v < 2 ^ n -> ev P v = 0.
  Proof.
    intros Hv. rewrite nk in Hv. rewrite <- (mat_app_gen k (ev P) v (ev_linear P) Hv).
    pose proof annih as H. rewrite forallb_forall in H.
    revert v Hv. generalize (mat k (ev P)) H. clear. intros l H v Hv. clear Hv. revert v.
    induction l as [|c l IH]; intros v; [reflexivity|]. cbn [GF2.app].
    rewrite IH by (intros x Hx; apply H; now right).
    assert (c = 0) as -> by (apply N.eqb_eq, H; now left). now destruct (N.odd v).
  Qed.

  Lemma iter_bound d x : x < 2 ^ n -> N.iter d T x < 2 ^ n.
  Proof.
    intros Hx. induction d as [|d IH] using N.peano_ind; [exact Hx|]. rewrite Niter_succ. auto.
  Qed.

  Lemma period_M x : x < 2 ^ n -> N.iter M T x = x.
  Proof.
    intros Hx. unfold M. rewrite <- (ev_powx x Mp (annihilates x Hx)).
    apply N.eqb_eq in order. now rewrite order.
  Qed.

  Lemma period_exact x : x < 2 ^ n -> x <> 0 -> forall d, N.iter d T x = x -> N.divide M d.
  Proof.
    intros Hx H0. apply cycle_exact; [reflexivity|now apply period_M|].
    intros r Pr Dr E.
    assert (Dz : (Z.of_N r | Zpos Mp)%Z).
    { destruct Dr as [q Eq]. exists (Z.of_N q). unfold M in Eq. lia. }
    pose proof (factors_ok_in _ _ _ Hps Hfac Pr Dz) as Hin.
    rewrite forallb_forall in Hcop. apply Hcop in Hin. unfold coprime_at in Hin.
    rewrite N2Z.id in Hin. fold M in Hin. destruct (M / r) as [|e]; [discriminate|].
    apply N.eqb_eq in Hin. apply (f_equal (fun q => ev q x)) in Hin.
    pose proof (annihilates x Hx) as Pv.
    rewrite ev_mulm in Hin by assumption. rewrite ev_lxor, (ev_powx x e Pv), E in Hin.
    change (ev 1 x) with x in Hin. rewrite N.lxor_nilpotent, ev_zero in Hin. now subst.
  Qed.

  Lemma iter_nonzero d x : x < 2 ^ n -> x <> 0 -> N.iter d T x <> 0.
  Proof.
    intros Hx H0 E. apply H0. rewrite <- (period_M x Hx).
    assert (Z : forall j, N.iter j T 0 = 0).
    { intros j. induction j as [|j IH] using N.peano_ind; [reflexivity|].
      rewrite Niter_succ, IH. now apply linear_0. }
    assert (Hd : N.iter (d * M) T x = x) by (apply iter_fix_mul, period_M, Hx).
    replace (d * M) with (d * (M - 1) + d) in Hd by (unfold M; nia).
    rewrite Niter_add, E, Z in Hd. now subst.
  Qed.

  Lemma iter_inj x i j : x < 2 ^ n -> x <> 0 -> i < M -> j < M ->
    N.iter i T x = N.iter j T x -> i = j.
  Proof.
    intros Hx H0.
    assert (W : forall i j, i < j -> j < M -> N.iter i T x = N.iter j T x -> False).
    { clear i j. intros i j Hij Hj E.
      assert (Hd : N.iter (j - i) T x = x).
      { rewrite <- (period_M x Hx) at 2. replace M with ((M - i) + i) by lia.
        rewrite Niter_add, E, <- Niter_add.
        replace (M - i + j) with (j - i + M) by lia. rewrite Niter_add. now rewrite (period_M x Hx). }
      apply (period_exact x Hx H0) in Hd. destruct Hd as [q Eq].
      assert (q = 0 \/ 1 <= q) as [->|Hq] by lia; [lia|]. nia. }
    intros Hi Hj E. destruct (N.lt_total i j) as [L|[L|L]]; [|exact L|];
      exfalso; [apply (W i j)|apply (W j i)]; auto.
  Qed.

  Theorem full_period x : x < 2 ^ n -> x <> 0 ->
    N.iter M T x = x /\ (forall d, N.iter d T x = x -> N.divide M d) /\
    (forall y, y < 2 ^ n -> y <> 0 -> exists i, i < M /\ N.iter i T x = y).
  Proof.
    intros Hx H0. split; [now apply period_M|split; [now apply period_exact|]].
    set (l := map (fun i => N.iter (N.of_nat i) T x) (seq 0 (N.to_nat M))).
    set (l' := map N.of_nat (seq 1 (N.to_nat M))).
    assert (Nl : NoDup l).
    { unfold l. assert (B : forall i, In i (seq 0 (N.to_nat M)) -> N.of_nat i < M).
      { intros i Hi. apply in_seq in Hi. lia. }
      pose proof (seq_NoDup (N.to_nat M) 0) as Nd.
      revert B Nd. generalize (seq 0 (N.to_nat M)). intros s B Nd.
      induction Nd as [|a s Ha Nd IH]; [constructor|]. cbn [map]. constructor.
      - intros Hin. apply in_map_iff in Hin. destruct Hin as (b & E & Hb).
        apply iter_inj in E; auto; [|apply B; now right|apply B; now left].
        apply Nat2N.inj in E. subst. contradiction.
      - apply IH. intros i Hi. apply B. now right. }
    assert (Inc : incl l l').
    { intros y Hy. apply in_map_iff in Hy. destruct Hy as (i & <- & _).
      pose proof (iter_bound (N.of_nat i) x Hx) as B.
      pose proof (iter_nonzero (N.of_nat i) x Hx H0) as B0.
      unfold l'. apply in_map_iff. exists (N.to_nat (N.iter (N.of_nat i) T x)).
      split; [apply N2Nat.id|]. apply in_seq. lia. }
    assert (Inc' : incl l' l).
    { apply NoDup_length_incl; [exact Nl| |exact Inc].
      unfold l, l'. rewrite !map_length, !seq_length. apply Nat.le_refl. }
    intros y Hy Hy0. assert (Hin : In y l').
    { unfold l'. apply in_map_iff. exists (N.to_nat y). split; [apply N2Nat.id|]. apply in_seq. lia. }
    apply Inc' in Hin. unfold l in Hin. apply in_map_iff in Hin. destruct Hin as (i & E & Hi).
    apply in_seq in Hi. exists (N.of_nat i). split; [lia|exact E].
  Qed.
End Period.

(** Inverse modulo P by Fermat: a^(2^n - 2). *)
Definition finv (P n : N) (Mp : positive) (a : N) : N := powm P n a (Pos.pred Mp).

(** The inverses that [Hcop] needs, to be evaluated once, and their lookup. *)
Definition inverses (P n : N) (Mp : positive) (ps : list Z) : list (N * N) :=
  map (fun p => match N.div (Npos Mp) (Z.to_N p) with
                | 0 => (0, 0)
                | Npos e => let c := N.lxor (powm P n 2 e) 1 in (c, finv P n Mp c)
                end) ps.
Definition lookup (t : list (N * N)) (c : N) : N :=
  match find (fun x => fst x =? c) t with Some x => snd x | None => 0 end.

Lemma ev_ext T T' : (forall x, T x = T' x) -> forall q v, ev T q v = ev T' q v.
Proof.
  intros H q v. destruct q as [|q]; [reflexivity|]. cbn [ev].
  induction q as [q IH|q IH|]; cbn [evp]; [|now rewrite IH|reflexivity]. now rewrite IH, H.
Qed.

(** 2^128 - 1 and its prime factors. *)
Definition M128 : positive := 340282366920938463463374607431768211455.
Definition ps128 : list Z := [3;5;17;257;641;65537;274177;6700417;67280421310721]%Z.
Lemma ps128_prime p : In p ps128 -> prime p.
Proof.
  intros H. cbn in H. repeat (destruct H as [H|H]; [|try contradiction]).
  all: subst p; first [ apply (all_trial_prime [3;5;17;257;641;65537;274177;6700417]%Z); [now vm_compute|cbn; tauto]
                      | exact prime_67280421310721 ].
Qed.
Lemma ps128_fac : factors_ok (Zpos M128) ps128 = true.
Proof. now vm_compute. Qed.

Definition M127 : positive := 170141183460469231731687303715884105727.
Lemma M127_prime : prime (Zpos M127).
Proof. exact prime_M127. Qed.
