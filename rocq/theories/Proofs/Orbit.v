(** Cycles of iterated functions, Fermat's little theorem, and a checkable primality
    certificate (Pocklington). Library only: nothing here models code in /repo. *)
From Coq Require Import NArith ZArith List Bool Lia Znumtheory Zpow_facts Permutation.
From Coq Require Import ZifyBool ZifyNat ZifyN.
From Verif Require Import Base.WordLemmas.
Import ListNotations.
Ltac Zify.zify_post_hook ::= idtac.

Lemma prime_divisor_exists n : (1 < n)%Z -> exists r, prime r /\ (r | n)%Z.
Proof.
  intros H. assert (H0 : (0 <= n)%Z) by lia. revert H.
  pattern n. apply Z_lt_induction; [|exact H0]. clear n H0. intros n IH H.
  destruct (prime_dec n) as [P|P]; [exists n; split; [exact P|apply Z.divide_refl]|].
  destruct (not_prime_divide n H P) as (m & Hm & D).
  destruct (IH m) as (r & Pr & Dr); [lia|lia|].
  exists r. split; [exact Pr|]. eapply Z.divide_trans; eassumption.
Qed.

(** ** cycles *)
Section Cycle.
  Context {A : Type} (f : A -> A).
  Open Scope N_scope.

  Lemma iter_fix_mul x d k : N.iter d f x = x -> N.iter (k * d) f x = x.
  Proof.
    intros H. induction k as [|k IH] using N.peano_ind; [reflexivity|].
    rewrite N.mul_succ_l, Niter_add, H. exact IH.
  Qed.

  Lemma iter_fix_gcd x a b : a <> 0 -> N.iter a f x = x -> N.iter b f x = x -> N.iter (N.gcd a b) f x = x.
  Proof.
    intros Ha Hxa Hxb. destruct (N.gcd_bezout_pos a b) as (u & v & E); [lia|].
    rewrite <- (iter_fix_mul x b v Hxb) at 1. rewrite <- Niter_add, <- E.
    now apply iter_fix_mul.
  Qed.

  (** [M] is the exact cycle length if M/r steps never close the cycle, for every
      prime divisor r of M. *)
  Lemma cycle_exact x M :
    0 < M -> N.iter M f x = x ->
    (forall r, prime (Z.of_N r) -> N.divide r M -> N.iter (M / r) f x <> x) ->
    forall d, N.iter d f x = x -> N.divide M d.
  Proof.
    intros HM Hx Hr d Hd.
    assert (Hg : N.iter (N.gcd M d) f x = x) by (apply iter_fix_gcd; auto; lia).
    destruct (N.gcd_divide_l M d) as [q Eq]. pose proof (N.gcd_divide_r M d) as D2.
    set (g := N.gcd M d) in *.
    assert (q = 0 \/ q = 1 \/ 1 < q) as [->|[->|Hq]] by lia; [lia| |].
    { rewrite N.mul_1_l in Eq. rewrite Eq. exact D2. }
    exfalso. destruct (prime_divisor_exists (Z.of_N q)) as (r & Pr & Dr); [lia|].
    assert (r0 : (0 < r)%Z) by (destruct Pr; lia).
    destruct Dr as [s Es]. assert ((0 < s)%Z) by nia.
    assert (E : q = Z.to_N s * Z.to_N r) by (rewrite <- Z2N.inj_mul by lia; lia).
    assert (Er : Z.to_N r <> 0) by lia.
    apply (Hr (Z.to_N r)).
    - now rewrite Z2N.id by lia.
    - exists (Z.to_N s * g). rewrite Eq, E. lia.
    - replace (M / Z.to_N r) with (Z.to_N s * g); [now apply iter_fix_mul|].
      apply N.div_unique_exact; [exact Er|]. rewrite Eq, E. lia.
  Qed.
End Cycle.

(** ** Fermat's little theorem *)
Open Scope Z_scope.

Definition zprod (l : list Z) : Z := fold_right Z.mul 1 l.

Lemma zprod_perm l l' : Permutation l l' -> zprod l = zprod l'.
Proof. induction 1; cbn [zprod fold_right] in *; try congruence; unfold zprod in *; cbn; lia. Qed.

Lemma zprod_not_div p l : prime p -> (forall x, In x l -> ~ (p | x)) -> ~ (p | zprod l).
Proof.
  intros P. induction l as [|a l IH]; intros H D.
  - cbn in D. destruct P as [P _]. apply Z.divide_1_r_nonneg in D; lia.
  - unfold zprod in D; cbn in D. apply prime_mult in D; [|exact P]. destruct D as [D|D].
    + apply (H a); [now left|exact D].
    + apply IH; [|exact D]. intros x Hx. apply H. now right.
Qed.

Lemma zprod_map_mod p a l : p <> 0 ->
  (zprod (map (fun i => (a * i) mod p) l)) mod p = (a ^ Z.of_nat (length l) * zprod l) mod p.
Proof.
  intros Hp. induction l as [|x l IH]; [reflexivity|].
  cbn [map length]. unfold zprod in *. cbn [fold_right].
  rewrite Zmult_mod, IH, <- Zmult_mod. rewrite Zmult_mod, Zmod_mod, <- Zmult_mod.
  f_equal. rewrite Nat2Z.inj_succ, Z.pow_succ_r by lia. ring.
Qed.

Lemma divide_sub_mod a b p : p <> 0 -> a mod p = b mod p -> (p | a - b).
Proof.
  intros Hp E. apply Z.mod_divide; [exact Hp|]. rewrite Zminus_mod, E, Z.sub_diag. apply Z.mod_0_l, Hp.
Qed.

Lemma fermat p a : prime p -> ~ (p | a) -> a ^ (p - 1) mod p = 1.
Proof.
  intros P Ha. pose proof (prime_ge_2 p P) as H2.
  set (n := Z.to_nat (p - 1)).
  set (l := map Z.of_nat (seq 1 n)).
  assert (Hl : forall x, In x l <-> 1 <= x < p).
  { intros x. unfold l. rewrite in_map_iff. split.
    - intros (k & <- & Hk). apply in_seq in Hk. lia.
    - intros Hx. exists (Z.to_nat x). split; [lia|]. apply in_seq. lia. }
  assert (Nl : NoDup l).
  { apply FinFun.Injective_map_NoDup; [intros x y; apply Nat2Z.inj|apply seq_NoDup]. }
  assert (Lnd : forall x, In x l -> ~ (p | x)).
  { intros x Hx D. apply Hl in Hx. apply Z.divide_pos_le in D; lia. }
  set (f := fun i => (a * i) mod p).
  assert (Inc : incl (map f l) l).
  { intros y Hy. apply in_map_iff in Hy. destruct Hy as (x & <- & Hx). apply Hl. unfold f.
    pose proof (Z.mod_pos_bound (a * x) p ltac:(lia)).
    enough ((a * x) mod p <> 0) by lia. intros E. apply Z.mod_divide in E; [|lia].
    apply prime_mult in E; [|exact P]. destruct E as [E|E]; [tauto|]. exact (Lnd x Hx E). }
  assert (Nm : NoDup (map f l)).
  { assert (Inj : forall x y, In x l -> In y l -> f x = f y -> x = y).
    { intros x y Hx Hy E. apply divide_sub_mod in E; [|lia].
      replace (a * x - a * y) with (a * (x - y)) in E by ring.
      apply prime_mult in E; [|exact P]. destruct E as [E|E]; [tauto|].
      apply Hl in Hx. apply Hl in Hy.
      destruct (Z.eq_dec x y) as [|Ne]; [assumption|exfalso].
      destruct E as [k Ek]. assert (k = 0 \/ k <= -1 \/ 1 <= k) as [|[|]] by lia; nia. }
    clear - Nl Inj. induction l as [|x l IH]; [constructor|].
    cbn. inversion Nl; subst. constructor.
    - intros Hin. apply in_map_iff in Hin. destruct Hin as (y & E & Hy).
      assert (y = x) by (apply Inj; [now right|now left|exact E]). subst. contradiction.
    - apply IH; [assumption|]. intros u v Hu Hv. apply Inj; now right. }
  assert (Pm : Permutation (map f l) l).
  { apply NoDup_Permutation_bis; [exact Nm|now rewrite map_length|exact Inc]. }
  pose proof (zprod_map_mod p a l ltac:(lia)) as E. fold f in E.
  rewrite (zprod_perm _ _ Pm) in E.
  assert (Len : Z.of_nat (length l) = p - 1) by (unfold l; rewrite map_length, seq_length; lia).
  rewrite Len in E. symmetry in E. apply divide_sub_mod in E; [|lia].
  replace (a ^ (p - 1) * zprod l - zprod l) with ((a ^ (p - 1) - 1) * zprod l) in E by ring.
  apply prime_mult in E; [|exact P]. destruct E as [E|E].
  - destruct E as [k Ek]. replace (a ^ (p - 1)) with (1 + k * p) by lia.
    rewrite Z_mod_plus_full. apply Z.mod_small. lia.
  - exfalso. revert E. now apply zprod_not_div.
Qed.

(** ** Pocklington *)
(** [factors_ok F ps]: dividing out the listed primes reduces F to 1, so that every
    prime divisor of F is in [ps]. *)
Fixpoint strip (fuel : nat) (p F : Z) : Z :=
  match fuel with
  | O => F
  | S k => if F mod p =? 0 then strip k p (F / p) else F
  end.

Lemma strip_div fuel p r F : prime p -> prime r -> (r | F) -> r <> p -> (r | strip fuel p F).
Proof.
  intros Pp Pr. revert F. induction fuel as [|k IH]; intros F D Ne; [exact D|]. cbn.
  destruct (F mod p =? 0) eqn:E; [|exact D].
  apply IH; [|exact Ne]. apply Z.eqb_eq in E. pose proof (prime_ge_2 p Pp).
  rewrite (Z.div_mod F p) in D by lia. rewrite E, Z.add_0_r in D.
  apply prime_mult in D; [|exact Pr]. destruct D as [D|D]; [|exact D].
  exfalso. apply Ne. now apply prime_div_prime.
Qed.

Definition factors_ok (F : Z) (ps : list Z) : bool :=
  fold_left (fun F p => strip 300 p F) ps F =? 1.

Lemma factors_ok_in F ps r :
  (forall p, In p ps -> prime p) -> factors_ok F ps = true -> prime r -> (r | F) -> In r ps.
Proof.
  unfold factors_ok. intros Hps E Pr. revert F E. induction ps as [|p ps IH]; intros F E D.
  - cbn in E. apply Z.eqb_eq in E. subst. destruct Pr as [Pr _]. apply Z.divide_1_r_nonneg in D; lia.
  - cbn [fold_left] in E. destruct (Z.eq_dec r p) as [->|Ne]; [now left|right].
    apply (IH (fun q Hq => Hps q (or_intror Hq)) (strip 300 p F) E).
    apply strip_div; auto. apply Hps. now left.
Qed.

Definition pock_ok (n F a : Z) (ps : list Z) : bool :=
  (1 <? n) && (0 <? F) && (n <? F * F) && ((n - 1) mod F =? 0) && factors_ok F ps
  && (Zpow_mod a (n - 1) n =? 1)
  && forallb (fun q => (F mod q =? 0) && (Z.gcd (Zpow_mod a ((n - 1) / q) n - 1) n =? 1)) ps.

Lemma pow_mod_mod a e p n : 0 < p -> (p | n) -> 0 < n -> (a ^ e mod n) mod p = a ^ e mod p.
Proof.
  intros Hp [k ->] Hn. rewrite (Z.mul_comm k p). rewrite Z.rem_mul_r by nia.
  rewrite Z.mul_comm, Z_mod_plus_full. apply Z.mod_mod. lia.
Qed.

Lemma pow_iter b p k : 0 < p -> N.iter k (fun x => (b * x) mod p) (1 mod p) = b ^ Z.of_N k mod p.
Proof.
  intros Hp. induction k as [|k IH] using N.peano_ind; [reflexivity|].
  rewrite Niter_succ, IH.
  rewrite Zmult_mod, Zmod_mod, <- Zmult_mod. f_equal. rewrite N2Z.inj_succ, Z.pow_succ_r by lia. reflexivity.
Qed.

Theorem pocklington n F a ps :
  (forall p, In p ps -> prime p) -> pock_ok n F a ps = true -> prime n.
Proof.
  intros Hps. unfold pock_ok. rewrite !andb_true_iff.
  intros ((((((Hn & HF) & HFF) & Hd) & Hf) & Ha) & Hq).
  apply Z.ltb_lt in Hn. apply Z.ltb_lt in HF. apply Z.ltb_lt in HFF.
  apply Z.eqb_eq in Hd. apply Z.eqb_eq in Ha. rewrite Zpow_mod_correct in Ha by lia.
  rewrite forallb_forall in Hq.
  pose proof (factors_ok_in F ps) as Hfac. specialize (fun r => Hfac r Hps Hf). clear Hf.
  assert (exists R, n - 1 = F * R /\ 0 <= R) as (R & ER & HR).
  { exists ((n - 1) / F). split; [|apply Z.div_pos; lia].
    rewrite (Z.div_mod (n - 1) F) at 1 by lia. rewrite Hd. apply Z.add_0_r. }
  clear Hd.
  assert (Main : forall p, prime p -> (p | n) -> F < p).
  { clear HFF. intros p Pp Dp. pose proof (prime_ge_2 p Pp) as Hp2.
    assert (H1p : 1 mod p = 1) by (apply Z.mod_small; clear - Hp2; lia).
    assert (p0 : p <> 0) by (clear - Hp2; lia). assert (p1 : 0 < p) by (clear - Hp2; lia).
    assert (n0 : n <> 0) by (clear - Hn; lia). assert (n1 : 0 < n) by (clear - Hn; lia).
    assert (F0 : 0 <= F) by (clear - HF; lia).
    assert (Hap : a ^ (n - 1) mod p = 1).
    { rewrite <- (pow_mod_mod a (n - 1) p n p1 Dp n1), Ha. exact H1p. }
    set (b := a ^ R). set (f := fun x => (b * x) mod p).
    assert (It : forall k, N.iter k f 1 = b ^ Z.of_N k mod p).
    { intros k. rewrite <- H1p at 1. apply pow_iter. exact p1. }
    assert (Hb : ~ (p | b)).
    { intros D. assert (D2 : (p | a ^ (n - 1))).
      { rewrite ER, Z.mul_comm, (Z.pow_mul_r _ _ _ HR F0). fold b.
        replace F with (Z.succ (F - 1)) by (clear; lia). rewrite Z.pow_succ_r by (clear - HF; lia).
        apply Z.divide_mul_l, D. }
      apply Z.mod_divide in D2; [|exact p0]. rewrite D2 in Hap. discriminate. }
    assert (Dv : N.divide (Z.to_N F) (Z.to_N (p - 1))).
    { apply (cycle_exact f 1); [clear - HF; lia| | |].
      - rewrite It, (Z2N.id _ F0). unfold b. rewrite <- (Z.pow_mul_r _ _ _ HR F0).
        rewrite Z.mul_comm, <- ER. exact Hap.
      - intros r Pr Dr E. rewrite It in E.
        assert (Dr' : (Z.of_N r | F)).
        { destruct Dr as [k Ek]. exists (Z.of_N k). clear - Ek F0. lia. }
        pose proof (Hfac (Z.of_N r) Pr Dr') as Hin.
        apply Hq in Hin. rewrite andb_true_iff in Hin. destruct Hin as [_ G]. apply Z.eqb_eq in G.
        rewrite (Zpow_mod_correct _ _ _ n0) in G.
        assert (Er : b ^ Z.of_N (Z.to_N F / r) = a ^ ((n - 1) / Z.of_N r)).
        { unfold b. rewrite <- (Z.pow_mul_r _ _ _ HR (N2Z.is_nonneg _)). f_equal.
          rewrite N2Z.inj_div, (Z2N.id _ F0). rewrite ER.
          destruct Dr' as [k Ek]. pose proof (prime_ge_2 _ Pr) as R2.
          assert (R0 : Z.of_N r <> 0) by (clear - R2; lia).
          rewrite Ek. rewrite (Z.div_mul _ _ R0).
          replace (k * Z.of_N r * R) with (R * k * Z.of_N r) by ring. now rewrite (Z.div_mul _ _ R0). }
        rewrite Er in E.
        assert (D : (p | Z.gcd (a ^ ((n - 1) / Z.of_N r) mod n - 1) n)).
        { apply Z.gcd_greatest; [|exact Dp]. apply divide_sub_mod; [exact p0|].
          rewrite (pow_mod_mod _ _ _ _ p1 Dp n1). now rewrite E, H1p. }
        rewrite G in D. apply Z.divide_1_r_nonneg in D; clear - D p1 Hp2; lia.
      - rewrite It, Z2N.id by (clear - Hp2; lia). now apply fermat. }
    destruct Dv as [k Ek]. assert (E : p - 1 = Z.of_N k * F) by (clear - Ek F0 Hp2; lia).
    clear - E HF Hp2. assert (1 <= Z.of_N k) by nia. nia. }
  clear Hfac Hq Ha ER HR.
  destruct (prime_dec n) as [|NP]; [assumption|exfalso].
  destruct (not_prime_divide n Hn NP) as (m & Hm & [k Ek]).
  destruct (prime_divisor_exists m) as (r1 & P1 & D1); [lia|].
  destruct (prime_divisor_exists k) as (r2 & P2 & D2); [nia|].
  assert (L1 : F < r1).
  { apply Main; [assumption|]. eapply Z.divide_trans; [exact D1|]. now exists k. }
  assert (L2 : F < r2).
  { apply Main; [assumption|]. eapply Z.divide_trans; [exact D2|]. exists m. lia. }
  apply Z.divide_pos_le in D1; [|lia]. apply Z.divide_pos_le in D2; nia.
Qed.

(** ** trial division, for small primes *)
Fixpoint trial (fuel : nat) (d n : Z) : bool :=
  match fuel with
  | O => false
  | S k => if n <? d * d then true else if n mod d =? 0 then false else trial k (d + 1) n
  end.

Lemma trial_sound fuel d n : 2 <= d -> trial fuel d n = true ->
  (forall m, 2 <= m < d -> ~ (m | n)) -> forall m, 2 <= m -> m * m <= n -> ~ (m | n).
Proof.
  revert d. induction fuel as [|k IH]; intros d Hd E H m Hm Hmn; [discriminate|].
  cbn in E. destruct (n <? d * d) eqn:E1.
  - apply Z.ltb_lt in E1. apply H. nia.
  - destruct (n mod d =? 0) eqn:E2; [discriminate|]. apply (IH (d + 1)); auto; try lia.
    intros q Hq D. destruct (Z.eq_dec q d) as [->|Ne].
    + apply Z.eqb_neq in E2. apply E2. apply Z.mod_divide; [lia|exact D].
    + apply (H q); [lia|exact D].
Qed.

Lemma trial_prime fuel n : 1 < n -> trial fuel 2 n = true -> prime n.
Proof.
  intros Hn E. destruct (prime_dec n) as [|NP]; [assumption|exfalso].
  destruct (not_prime_divide n Hn NP) as (m & Hm & [k Ek]).
  assert (T : forall m, 2 <= m -> m * m <= n -> ~ (m | n)).
  { apply (trial_sound fuel 2 n); [lia|exact E|]. intros; lia. }
  assert (1 < k) by nia.
  destruct (Z_le_gt_dec m k).
  - apply (T m); [lia|nia|now exists k].
  - apply (T k); [lia|nia|]. exists m. lia.
Qed.

Definition all_trial (ps : list Z) : bool := forallb (fun p => (1 <? p) && trial 3000 2 p) ps.

Lemma all_trial_prime ps : all_trial ps = true -> forall p, In p ps -> prime p.
Proof.
  unfold all_trial. rewrite forallb_forall. intros H p Hp. apply H in Hp.
  rewrite andb_true_iff in Hp. destruct Hp as [H1 H2]. apply Z.ltb_lt in H1.
  exact (trial_prime _ _ H1 H2).
Qed.

(** The primes needed for 2^128 - 1 and 2^127 - 1. *)
Lemma prime_67280421310721 : prime 67280421310721.
Proof.
  apply (pocklington _ 22439680 3 [2;5;47;373]).
  - apply all_trial_prime. now vm_compute.
  - now vm_compute.
Qed.

Lemma prime_M127 : prime (2 ^ 127 - 1).
Proof.
  apply (pocklington _ 2205081746441495815869431694 43 [2;3;7;19;43;73;127;337;5419;92737;649657]).
  - apply all_trial_prime. now vm_compute.
  - now vm_compute.
Qed.
