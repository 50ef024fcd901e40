(** Rounding errors of the standard library's [SpecFloat] operations, as rational
    inequalities. Library only: nothing here models code in /repo. *)
From Coq Require Import ZArith QArith Qpower Qabs Lia Lqa SpecFloat Bool Setoid Morphisms.
Open Scope Q_scope.

(** ** Powers of two *)
Definition p2 (e : Z) : Q := Qpower (2 # 1) e.
Lemma p2_pos e : 0 < p2 e.
Proof. apply Qpower_0_lt. reflexivity. Qed.
Lemma p2_plus e f : p2 (e + f) == p2 e * p2 f.
Proof. apply Qpower_plus. discriminate. Qed.
Lemma p2_succ e : p2 (e + 1) == 2 * p2 e.
Proof. rewrite p2_plus. change (p2 1) with (2 # 1). ring. Qed.
Lemma p2_Z e : (0 <= e)%Z -> p2 e == inject_Z (2 ^ e).
Proof. intros H. unfold p2. change (2 # 1) with (inject_Z 2). symmetry. now apply Zpower_Qpower. Qed.
Lemma p2_le e f : (e <= f)%Z -> p2 e <= p2 f.
Proof.
  intros H. replace f with (e + (f - e))%Z by lia. rewrite p2_plus, (p2_Z (f - e)) by lia.
  assert (1 <= 2 ^ (f - e))%Z by (apply Z.pow_le_mono_r with (b := 0%Z); lia).
  assert (1 <= inject_Z (2 ^ (f - e))) by (unfold Qle; cbn; lia).
  pose proof (p2_pos e). nra.
Qed.

Lemma p2_lt_inv a b : p2 a < p2 b -> (a < b)%Z.
Proof. intros H. destruct (Z.lt_ge_cases a b) as [|G]; [assumption|]. pose proof (p2_le b a G). exfalso. lra. Qed.

(** ** Values *)
Definition signed (s : bool) (x : Q) : Q := if s then - x else x.
#[global] Instance signed_Proper : Proper (eq ==> Qeq ==> Qeq) signed.
Proof. intros s _ <- x y E. destruct s; cbn; now rewrite E. Qed.
Definition fval (x : spec_float) : Q :=
  match x with
  | S754_finite s m e => signed s (inject_Z (Zpos m) * p2 e)
  | _ => 0
  end.
Definition is_finite (x : spec_float) : bool :=
  match x with S754_zero _ | S754_finite _ _ _ => true | _ => false end.

(** ** Digits *)
Lemma digits_size p : digits2_pos p = Pos.size p.
Proof. induction p as [p IH|p IH|]; cbn; [now rewrite IH|now rewrite IH|reflexivity]. Qed.
Lemma digits_bounds p : (2 ^ (Zpos (digits2_pos p) - 1) <= Zpos p < 2 ^ Zpos (digits2_pos p))%Z.
Proof.
  rewrite digits_size. split.
  - pose proof (Pos.size_le p) as H. assert (H' : (2 ^ Zpos (Pos.size p) <= 2 * Zpos p)%Z).
    { change (2 * Zpos p)%Z with (Zpos p~0). rewrite <- Pos2Z.inj_pow. exact H. }
    replace (Zpos (Pos.size p)) with (Z.succ (Zpos (Pos.size p) - 1)) in H' by lia.
    rewrite Z.pow_succ_r in H' by lia. lia.
  - pose proof (Pos.size_gt p) as H. rewrite <- Pos2Z.inj_pow. exact H.
Qed.
Lemma Zdigits_bounds m : (0 < m)%Z -> (0 < Zdigits2 m /\ 2 ^ (Zdigits2 m - 1) <= m < 2 ^ Zdigits2 m)%Z.
Proof. destruct m as [|p|p]; try lia. intros _. cbn [Zdigits2]. split; [lia|apply digits_bounds]. Qed.
Lemma Zdigits_unique m d : (0 < m)%Z -> (2 ^ (d - 1) <= m < 2 ^ d)%Z -> Zdigits2 m = d.
Proof.
  intros Hm H. destruct (Zdigits_bounds m Hm) as (P & H').
  assert (d <> 0)%Z by (intros ->; cbn in H; lia).
  assert (~ d < 0)%Z. { intros L. rewrite (Z.pow_neg_r 2 d L) in H. lia. }
  assert (A : (2 ^ (d - 1) < 2 ^ Zdigits2 m)%Z) by lia. apply Z.pow_lt_mono_r_iff in A; try lia.
  assert (B : (2 ^ (Zdigits2 m - 1) < 2 ^ d)%Z) by lia. apply Z.pow_lt_mono_r_iff in B; lia.
Qed.
Lemma Zdigits_le m d : (0 <= d)%Z -> (0 <= m < 2 ^ d)%Z -> (Zdigits2 m <= d)%Z.
Proof.
  intros Hd H. destruct (Z.eq_dec m 0) as [->|]; [cbn; lia|].
  destruct (Zdigits_bounds m ltac:(lia)) as (P & H').
  assert (A : (2 ^ (Zdigits2 m - 1) < 2 ^ d)%Z) by lia. apply Z.pow_lt_mono_r_iff in A; lia.
Qed.

(** ** Locations *)
Definition inb (m e : Z) (l : location) (x : Q) : Prop :=
  match l with
  | loc_Exact => x == inject_Z m * p2 e
  | loc_Inexact Lt => inject_Z m * p2 e < x /\ x < (inject_Z m + (1 # 2)) * p2 e
  | loc_Inexact Eq => x == (inject_Z m + (1 # 2)) * p2 e
  | loc_Inexact Gt => (inject_Z m + (1 # 2)) * p2 e < x /\ x < (inject_Z m + 1) * p2 e
  end.
Definition inbr (r : shr_record) (e : Z) (x : Q) : Prop := inb (shr_m r) e (loc_of_shr_record r) x.
Lemma inbr_of_loc m e l x : inb m e l x -> inbr (shr_record_of_loc m l) e x.
Proof. now destruct l as [|[]]. Qed.

Lemma shr_1_ok r e x : (0 <= shr_m r)%Z -> inbr r e x ->
  shr_m (shr_1 r) = (shr_m r / 2)%Z /\ inbr (shr_1 r) (e + 1) x.
Proof.
  destruct r as [m r s]. cbn [shr_m]. intros Hm H.
  pose proof (p2_pos e) as P. unfold inbr in *.
  destruct m as [|[p|p|]|p]; [| | | |lia]; cbn [shr_1 shr_m] in *.
  - split; [reflexivity|].
    destruct r, s; cbn [loc_of_shr_record inb orb] in *; rewrite p2_succ; change (inject_Z 0) with 0 in *; try split; lra.
  - split; [apply Z.div_unique with 1%Z; lia|].
    assert (E : inject_Z (Zpos p~1) == 2 * inject_Z (Zpos p) + 1) by (rewrite Pos2Z.inj_xI, inject_Z_plus, inject_Z_mult; reflexivity).
    destruct r, s; cbn [loc_of_shr_record inb orb] in *; rewrite p2_succ; rewrite E in H; clear E; revert H;
      generalize (inject_Z (Zpos p)); intros n H; try split; lra.
  - split; [apply Z.div_unique with 0%Z; lia|].
    assert (E : inject_Z (Zpos p~0) == 2 * inject_Z (Zpos p)) by (rewrite Pos2Z.inj_xO, inject_Z_mult; reflexivity).
    destruct r, s; cbn [loc_of_shr_record inb orb] in *; rewrite p2_succ; rewrite E in H; clear E; revert H;
      generalize (inject_Z (Zpos p)); intros n H; try split; lra.
  - split; [reflexivity|].
    destruct r, s; cbn [loc_of_shr_record inb orb] in *; rewrite p2_succ; change (inject_Z 0) with 0 in *;
      change (inject_Z 1) with 1 in *; try split; lra.
Qed.

Lemma iter_plus {A} (f : A -> A) a b x : Nat.iter (a + b) f x = Nat.iter a f (Nat.iter b f x).
Proof. induction a as [|a IH]; [reflexivity|]. exact (f_equal f IH). Qed.
Lemma iter_pos_nat {A} (f : A -> A) n : forall x, iter_pos f n x = Nat.iter (Pos.to_nat n) f x.
Proof.
  induction n as [n IH|n IH|]; intros x; cbn [iter_pos].
  - rewrite !IH, Pos2Nat.inj_xI. change (f x) with (Nat.iter 1 f x). rewrite <- !iter_plus. f_equal. lia.
  - rewrite !IH, Pos2Nat.inj_xO, <- iter_plus. f_equal. lia.
  - reflexivity.
Qed.
Lemma shr_iter_ok n : forall r e x, (0 <= shr_m r)%Z -> inbr r e x ->
  shr_m (Nat.iter n shr_1 r) = (shr_m r / 2 ^ Z.of_nat n)%Z /\ inbr (Nat.iter n shr_1 r) (e + Z.of_nat n) x.
Proof.
  induction n as [|n IH]; intros r e x Hm H.
  - cbn [Nat.iter]. change (2 ^ Z.of_nat 0)%Z with 1%Z. rewrite Z.div_1_r.
    replace (e + Z.of_nat 0)%Z with e by lia. now split.
  - change (Nat.iter (S n) shr_1 r) with (shr_1 (Nat.iter n shr_1 r)). destruct (IH r e x Hm H) as [E I].
    assert (P : (0 <= shr_m (Nat.iter n shr_1 r))%Z) by (rewrite E; apply Z.div_pos; lia).
    destruct (shr_1_ok _ _ _ P I) as [E' I']. split.
    + rewrite E', E, Z.div_div by lia. f_equal. rewrite Nat2Z.inj_succ, Z.pow_succ_r by lia. ring.
    + replace (e + Z.of_nat (S n))%Z with (e + Z.of_nat n + 1)%Z by lia. exact I'.
Qed.
Lemma shr_ok r e n x : (0 <= shr_m r)%Z -> inbr r e x ->
  exists r', shr r e n = (r', (e + Z.max 0 n)%Z) /\ shr_m r' = (shr_m r / 2 ^ Z.max 0 n)%Z /\
             inbr r' (e + Z.max 0 n) x.
Proof.
  intros Hm H. destruct n as [|p|p]; cbn [shr].
  - exists r. change (Z.max 0 0) with 0%Z. rewrite Z.add_0_r. change (2 ^ 0)%Z with 1%Z. now rewrite Z.div_1_r.
  - rewrite iter_pos_nat. destruct (shr_iter_ok (Pos.to_nat p) r e x Hm H) as [E I].
    exists (Nat.iter (Pos.to_nat p) shr_1 r). rewrite positive_nat_Z in E, I.
    replace (Z.max 0 (Z.pos p)) with (Z.pos p) by lia. now split.
  - exists r. replace (Z.max 0 (Z.neg p)) with 0%Z by lia. rewrite Z.add_0_r. change (2 ^ 0)%Z with 1%Z. now rewrite Z.div_1_r.
Qed.

(** ** Rounding an in-between number *)
Lemma round_near m e l x : inb m e l x ->
  Qabs (inject_Z (round_nearest_even m l) * p2 e - x) <= (1 # 2) * p2 e.
Proof.
  intros H. pose proof (p2_pos e) as P. apply Qabs_Qle_condition.
  set (y := inject_Z m * p2 e).
  assert (E1 : (inject_Z m + (1 # 2)) * p2 e == y + (1 # 2) * p2 e) by (unfold y; ring).
  assert (E2 : (inject_Z m + 1) * p2 e == y + p2 e) by (unfold y; ring).
  assert (E3 : inject_Z (m + 1) * p2 e == y + p2 e) by (rewrite inject_Z_plus; unfold y; ring).
  destruct l as [|[]]; cbn [inb round_nearest_even] in *; rewrite ?E1, ?E2 in H;
    [|destruct (Z.even m)| |]; rewrite ?E3; fold y; fold y in H; split; lra.
Qed.
Lemma round_step m l : (m <= round_nearest_even m l <= m + 1)%Z.
Proof. destruct l as [|[]]; cbn [round_nearest_even]; try lia. destruct (Z.even m); lia. Qed.
Lemma inb_bounds m e l x : inb m e l x -> inject_Z m * p2 e <= x /\ x < (inject_Z m + 1) * p2 e.
Proof.
  intros H. pose proof (p2_pos e) as P. set (y := inject_Z m * p2 e).
  assert (E1 : (inject_Z m + (1 # 2)) * p2 e == y + (1 # 2) * p2 e) by (unfold y; ring).
  assert (E2 : (inject_Z m + 1) * p2 e == y + p2 e) by (unfold y; ring).
  destruct l as [|[]]; cbn [inb] in *; rewrite ?E1, ?E2 in *; fold y in H; split; lra.
Qed.

Section Format.
Variables prec emax : Z.
Hypothesis Hprec : (1 < prec)%Z.
Hypothesis Hemax : (prec < emax)%Z.

(** The largest finite value. *)
Definition maxf : Q := inject_Z (2 ^ prec - 1) * p2 (emax - prec).
Definition canonical (x : spec_float) : Prop :=
  match x with
  | S754_zero _ => True
  | S754_finite _ m e => fexp prec emax (Zpos (digits2_pos m) + e) = e /\ (e <= emax - prec)%Z
  | _ => False
  end.

(** The result of rounding [x], given by its magnitude and location. *)
Lemma aux_ok s mx ex lx x : (0 < mx)%Z -> inb mx ex lx x ->
  (ex <= fexp prec emax (Zdigits2 mx + ex))%Z -> x <= maxf ->
  let r := binary_round_aux prec emax s mx ex lx in
  canonical r /\ (r = S754_zero s \/ exists m e, r = S754_finite s m e) /\
  (exists n, fval r == signed s (inject_Z n * p2 (fexp prec emax (Zdigits2 mx + ex))) /\
     Qabs (inject_Z n * p2 (fexp prec emax (Zdigits2 mx + ex)) - x) <=
       (1 # 2) * p2 (fexp prec emax (Zdigits2 mx + ex))) /\
  Qabs (fval r - signed s x) <= (1 # 2) * p2 (fexp prec emax (Zdigits2 mx + ex)).
Proof.
  intros Hm Hx He Hov r. rewrite <- and_assoc. rewrite <- and_assoc.
  assert (SV : forall y z w, Qabs (y - z) <= w -> Qabs (signed s y - signed s z) <= w).
  { intros y z w H. destruct s; cbn [signed]; [|exact H].
    setoid_replace (- y - - z) with (- (y - z)) by ring. now rewrite Qabs_opp. }
  cut ((canonical r /\ (r = S754_zero s \/ exists m e, r = S754_finite s m e)) /\
     exists n, fval r == signed s (inject_Z n * p2 (fexp prec emax (Zdigits2 mx + ex))) /\
     Qabs (inject_Z n * p2 (fexp prec emax (Zdigits2 mx + ex)) - x) <=
       (1 # 2) * p2 (fexp prec emax (Zdigits2 mx + ex))).
  { intros [A (n & V & E)]. split; [split; [exact A|now exists n]|]. rewrite V. now apply SV. }
  rewrite and_assoc. unfold r, binary_round_aux, shr_fexp.
  set (d := Zdigits2 mx) in *. set (e1 := fexp prec emax (d + ex)) in *.
  destruct (Zdigits_bounds mx Hm) as (Hd & Hmd). fold d in Hd, Hmd.
  assert (Hr : (0 <= shr_m (shr_record_of_loc mx lx))%Z) by (destruct lx as [|[]]; cbn; lia).
  destruct (shr_ok _ ex (e1 - ex) x Hr (inbr_of_loc _ _ _ _ Hx)) as (r1 & E1 & Em1 & I1).
  rewrite E1. replace (ex + Z.max 0 (e1 - ex))%Z with e1 in * by lia.
  replace (shr_m (shr_record_of_loc mx lx)) with mx in Em1 by (destruct lx as [|[]]; reflexivity).
  replace (Z.max 0 (e1 - ex)) with (e1 - ex)%Z in Em1 by lia.
  set (k := (e1 - ex)%Z) in *.
  assert (Hk : (0 <= k /\ d - prec <= k)%Z) by (unfold k, e1, fexp in *; lia).
  assert (Hemin : (emin prec emax <= e1)%Z) by (unfold e1, fexp; lia).
  assert (M1 : (0 <= shr_m r1 < 2 ^ prec)%Z).
  { rewrite Em1. split; [apply Z.div_pos; lia|]. apply Z.div_lt_upper_bound; [lia|].
    rewrite <- Z.pow_add_r by lia. apply Z.lt_le_trans with (2 ^ d)%Z; [lia|].
    apply Z.pow_le_mono_r; lia. }
  assert (M2 : e1 = emin prec emax \/ (2 ^ (prec - 1) <= shr_m r1)%Z).
  { destruct (Z.eq_dec e1 (emin prec emax)) as [->|Ne]; [now left|right].
    assert (Ek : (k = d - prec)%Z) by (unfold k, e1, fexp in *; lia). rewrite Em1.
    apply Z.div_le_lower_bound; [lia|]. rewrite <- Z.pow_add_r by lia.
    replace (k + (prec - 1))%Z with (d - 1)%Z by lia. lia. }
  pose proof (round_near _ _ _ _ I1) as N1.
  pose proof (round_step (shr_m r1) (loc_of_shr_record r1)) as N2.
  set (n := round_nearest_even (shr_m r1) (loc_of_shr_record r1)) in *.
  assert (Hpow : (2 ^ prec = 2 * 2 ^ (prec - 1))%Z).
  { replace prec with (Z.succ (prec - 1)) at 1 by lia. rewrite Z.pow_succ_r by lia. reflexivity. }
  assert (Hp1 : (0 < 2 ^ (prec - 1))%Z) by (apply Z.pow_pos_nonneg; lia).
  destruct (inb_bounds _ _ _ _ Hx) as [Lx _].
  assert (Hmag : (d + ex <= emax)%Z).
  { assert (B : p2 (d - 1 + ex) < p2 emax).
    { apply Qle_lt_trans with x.
      - apply Qle_trans with (2 := Lx). rewrite p2_plus, (p2_Z (d - 1)) by lia.
        apply Qmult_le_compat_r; [|apply Qlt_le_weak, p2_pos]. rewrite <- Zle_Qle. lia.
      - apply Qle_lt_trans with (1 := Hov). unfold maxf.
        replace emax with (prec + (emax - prec))%Z at 2 by lia. rewrite p2_plus, (p2_Z prec) by lia.
        apply Qmult_lt_compat_r; [apply p2_pos|]. rewrite <- Zlt_Qlt. lia. }
    destruct (Z.le_gt_cases (d + ex) emax) as [|G]; [assumption|].
    pose proof (p2_le emax (d - 1 + ex) ltac:(lia)). exfalso. lra. }
  assert (He1 : (e1 + prec <= emax)%Z) by (unfold e1, fexp, emin in *; lia).
  assert (Htop : n = (2 ^ prec)%Z -> (e1 + 1 + prec <= emax)%Z).
  { intros Hn. destruct (Z.eq_dec (e1 + prec) emax) as [Et|]; [|lia]. exfalso.
    assert (Q1 : x <= inject_Z (2 ^ prec - 1) * p2 e1).
    { replace e1 with (emax - prec)%Z by lia. exact Hov. }
    pose proof (p2_pos e1) as P1.
    assert (Em : shr_m r1 = (2 ^ prec - 1)%Z) by lia.
    rewrite <- Em in Q1. unfold inbr in I1. unfold n in Hn.
    destruct (loc_of_shr_record r1) as [|[]]; cbn [inb round_nearest_even] in *; [lia|..];
      revert Q1 I1; generalize (inject_Z (shr_m r1)); intros w Q1 I1; lra. }
  assert (Hn : n = 0%Z \/ (0 < n < 2 ^ prec)%Z \/ n = (2 ^ prec)%Z) by lia.
  destruct Hn as [Hn|[Hn|Hn]].
  - rewrite Hn. cbn [Zdigits2 shr_record_of_loc].
    destruct (shr_ok {| shr_m := 0; shr_r := false; shr_s := false |} e1 (fexp prec emax (0 + e1) - e1) 0)
      as (r2 & E2 & Em2 & _); [cbn; lia|unfold inbr; cbn; ring|].
    rewrite E2. cbn [shr_m] in Em2. rewrite Z.div_0_l in Em2 by (apply Z.pow_nonzero; lia). rewrite Em2.
    split; [exact I|]. split; [now left|].
    exists n. split; [|exact N1]. rewrite Hn, Qmult_0_l. now destruct s.
  - assert (Dn : (Zdigits2 n <= prec)%Z) by (apply Zdigits_le; lia).
    assert (F : (fexp prec emax (Zdigits2 n + e1) <= e1)%Z) by (unfold fexp in *; lia).
    assert (F' : fexp prec emax (Zdigits2 n + e1) = e1).
    { destruct M2 as [M2|M2]; [unfold fexp in *; lia|].
      assert (Zdigits2 n = prec) by (apply Zdigits_unique; lia). unfold fexp in *. lia. }
    destruct n as [|p|p]; try lia. cbn [shr_record_of_loc].
    rewrite F', Z.sub_diag. cbn [shr shr_m].
    destruct (Z.leb_spec e1 (emax - prec)); [|lia].
    split; [|split; [right; now exists p, e1|exists (Z.pos p); split; [reflexivity|exact N1]]].
    cbn [canonical]. now split.
  - rewrite Hn. assert (Dn : Zdigits2 (2 ^ prec) = (prec + 1)%Z).
    { apply Zdigits_unique; [lia|]. rewrite Z.pow_add_r by lia. replace (prec + 1 - 1)%Z with prec by lia. lia. }
    rewrite Dn. assert (F : fexp prec emax (prec + 1 + e1) = (e1 + 1)%Z) by (unfold fexp in *; lia).
    rewrite F. replace (e1 + 1 - e1)%Z with 1%Z by lia. cbn [shr shr_record_of_loc].
    rewrite Hpow. destruct (2 ^ (prec - 1))%Z as [|q|q] eqn:Eq; try lia.
    change (2 * Z.pos q)%Z with (Z.pos q~0). cbn [iter_pos shr_1 shr_m].
    specialize (Htop Hn). destruct (Z.leb_spec (e1 + 1) (emax - prec)); [|lia].
    split; [|split; [right; now exists q, (e1 + 1)%Z|]].
    + cbn [canonical]. split; [|assumption].
      assert (Dq : Zdigits2 (Z.pos q) = prec) by (apply Zdigits_unique; lia). cbn [Zdigits2] in Dq. rewrite Dq.
      unfold fexp in *. lia.
    + exists n. split; [|exact N1]. cbn [fval]. rewrite p2_succ.
      setoid_replace (inject_Z (Z.pos q) * (2 * p2 e1)) with (inject_Z n * p2 e1); [reflexivity|].
      rewrite Hn, Hpow, inject_Z_mult. change (inject_Z 2) with (2 # 1). ring.
Qed.

(** ** [r] is [x] rounded: [r] is nearest on the grid of the magnitude of [x]. *)
Definition rounded (r : spec_float) (x : Q) : Prop :=
  canonical r /\
  ((x == 0 /\ fval r == 0) \/
   exists d n, p2 (d - 1) <= Qabs x /\ Qabs x < p2 d /\
     fval r == inject_Z n * p2 (fexp prec emax d) /\
     Qabs (fval r - x) <= (1 # 2) * p2 (fexp prec emax d)).
#[global] Instance rounded_Proper : Proper (eq ==> Qeq ==> iff) rounded.
Proof.
  intros r _ <- x y E. unfold rounded. split; intros [C [[A B]|(d & n & L & U & V & H)]]; (split; [exact C|]).
  - left. now rewrite <- E.
  - right. exists d, n. now rewrite <- E.
  - left. now rewrite E.
  - right. exists d, n. now rewrite E.
Qed.
Definition u : Q := p2 (- prec).
Definition eta : Q := p2 (emin prec emax - 1).
Lemma eta_pos : 0 < eta.
Proof. apply p2_pos. Qed.
Lemma u_pos : 0 < u.
Proof. apply p2_pos. Qed.
(** Absolute errors. *)
Lemma rounded_abs r x d : rounded r x -> Qabs x < p2 d ->
  Qabs (fval r - x) <= (1 # 2) * p2 (fexp prec emax d).
Proof.
  intros [_ [[A B]|(d' & n & L & U & _ & H)]] Hx.
  - rewrite A, B. change (Qabs (0 - 0)) with 0. pose proof (p2_pos (fexp prec emax d)). lra.
  - apply Qle_trans with (1 := H).
    assert (K : p2 (d' - 1) < p2 d) by lra. apply p2_lt_inv in K.
    assert (p2 (fexp prec emax d') <= p2 (fexp prec emax d)) by (apply p2_le; unfold fexp; lia). lra.
Qed.
(** Relative errors: of a normal value, and in general. *)
Lemma rounded_rel r x : rounded r x -> p2 (emin prec emax + prec - 1) <= Qabs x ->
  Qabs (fval r - x) <= u * Qabs x.
Proof.
  intros [_ [[A B]|(d & n & L & U & _ & H)]] Hx.
  - rewrite A in Hx. change (Qabs 0) with 0 in Hx. pose proof (p2_pos (emin prec emax + prec - 1)). exfalso. lra.
  - apply Qle_trans with (1 := H).
    assert (K : p2 (emin prec emax + prec - 1) < p2 d) by lra. apply p2_lt_inv in K.
    replace (fexp prec emax d) with (d - prec)%Z by (unfold fexp; lia).
    assert (E : (1 # 2) * p2 (d - prec) == u * p2 (d - 1)).
    { unfold u. rewrite <- p2_plus. replace (d - prec)%Z with (- prec + (d - 1) + 1)%Z by lia. rewrite p2_succ. ring. }
    rewrite E, !(Qmult_comm u). apply Qmult_le_compat_r; [exact L|apply Qlt_le_weak, u_pos].
Qed.
Lemma rounded_err r x : rounded r x -> Qabs (fval r - x) <= u * Qabs x + eta.
Proof.
  intros R. pose proof eta_pos as Pe. pose proof u_pos as Pu. pose proof (Qabs_nonneg x) as Px.
  assert (Ux : 0 <= u * Qabs x) by (apply Qmult_le_0_compat; [apply Qlt_le_weak, u_pos|exact Px]).
  destruct (Qlt_le_dec (Qabs x) (p2 (emin prec emax + prec - 1))) as [L|G].
  - pose proof (rounded_abs _ _ _ R L) as A.
    replace (fexp prec emax (emin prec emax + prec - 1)) with (emin prec emax - 1 + 1)%Z in A by (unfold fexp; lia).
    rewrite p2_succ in A. fold eta in A. lra.
  - pose proof (rounded_rel _ _ R G). lra.
Qed.
(** A value of the format is its own rounding, and the only one. *)
Lemma canonical_grid y : canonical y -> fval y == 0 \/
  exists d n, p2 (d - 1) <= Qabs (fval y) /\ Qabs (fval y) < p2 d /\ fval y == inject_Z n * p2 (fexp prec emax d).
Proof.
  destruct y as [s| | |s m e]; try contradiction; [now left|]. intros [F O]. right.
  exists (Zpos (digits2_pos m) + e)%Z, (if s then Z.neg m else Z.pos m). cbn [fval].
  assert (P : 0 <= inject_Z (Zpos m) * p2 e) by (apply Qmult_le_0_compat; [discriminate|apply Qlt_le_weak, p2_pos]).
  assert (A : Qabs (signed s (inject_Z (Zpos m) * p2 e)) == inject_Z (Zpos m) * p2 e).
  { destruct s; cbn [signed]; [rewrite Qabs_opp|]; now apply Qabs_pos. }
  rewrite A, F. pose proof (digits_bounds m) as B. repeat split.
  - replace (Zpos (digits2_pos m) + e - 1)%Z with (Zpos (digits2_pos m) - 1 + e)%Z by lia.
    rewrite p2_plus, (p2_Z (Zpos (digits2_pos m) - 1)) by lia.
    apply Qmult_le_compat_r; [|apply Qlt_le_weak, p2_pos]. rewrite <- Zle_Qle. lia.
  - rewrite (p2_plus (Zpos (digits2_pos m))), (p2_Z (Zpos (digits2_pos m))) by lia.
    apply Qmult_lt_compat_r; [apply p2_pos|]. rewrite <- Zlt_Qlt. lia.
  - destruct s; cbn [signed]; [change (inject_Z (Z.neg m)) with (- inject_Z (Z.pos m)); ring|reflexivity].
Qed.
Lemma rounded_exact r x : canonical r -> fval r == x -> rounded r x.
Proof.
  intros C V. split; [exact C|]. destruct (canonical_grid r C) as [E|(d & n & L & U & E)].
  - left. split; [now rewrite <- V|exact E].
  - right. exists d, n. rewrite <- V. repeat split; [exact L|exact U|exact E|].
    setoid_replace (fval r - fval r) with 0 by ring. change (Qabs 0) with 0.
    pose proof (p2_pos (fexp prec emax d)). lra.
Qed.
Lemma rounded_fixed r x y : rounded r x -> canonical y -> fval y == x -> fval r == x.
Proof.
  intros [_ [[A B]|(d & n & L & U & V & H)]] C E; [now rewrite A, B|].
  destruct (canonical_grid y C) as [Z0|(d' & n' & L' & U' & V')].
  - exfalso. rewrite <- E, Z0 in L. change (Qabs 0) with 0 in L. pose proof (p2_pos (d - 1)). lra.
  - rewrite E in L', U', V'. pose proof (p2_pos (fexp prec emax d)) as P.
    assert (d' = d) as ->.
    { assert (K1 : p2 (d - 1) < p2 d') by lra. assert (K2 : p2 (d' - 1) < p2 d) by lra.
      apply p2_lt_inv in K1, K2. lia. }
    rewrite V, V' in *. apply Qabs_Qle_condition in H. destruct H as [H1 H2].
    assert (n = n') as ->; [|reflexivity].
    assert (W1 : inject_Z n' - 1 < inject_Z n).
    { apply Qmult_lt_r with (p2 (fexp prec emax d)); [exact P|]. lra. }
    assert (W2 : inject_Z n < inject_Z n' + 1).
    { apply Qmult_lt_r with (p2 (fexp prec emax d)); [exact P|]. lra. }
    change 1 with (inject_Z 1) in W1, W2. rewrite <- inject_Z_plus, <- Zlt_Qlt in W2.
    unfold Qminus in W1. rewrite <- inject_Z_opp, <- inject_Z_plus, <- Zlt_Qlt in W1. lia.
Qed.

Lemma aux_rounded s mx ex lx x : (0 < mx)%Z -> inb mx ex lx x ->
  (ex <= fexp prec emax (Zdigits2 mx + ex))%Z -> x <= maxf ->
  let r := binary_round_aux prec emax s mx ex lx in
  rounded r (signed s x) /\ (r = S754_zero s \/ exists m e, r = S754_finite s m e).
Proof.
  intros Hm Hx He Hov r. destruct (aux_ok s mx ex lx x Hm Hx He Hov) as (C & S & (n & V & _) & Er).
  fold r in C, S, V, Er. split; [|exact S]. split; [exact C|]. right.
  destruct (Zdigits_bounds mx Hm) as (Hd & Hmd). destruct (inb_bounds _ _ _ _ Hx) as [L U].
  assert (Px : 0 <= x).
  { apply Qle_trans with (2 := L). apply Qmult_le_0_compat; [|apply Qlt_le_weak, p2_pos].
    change 0 with (inject_Z 0). rewrite <- Zle_Qle. lia. }
  assert (A : Qabs (signed s x) == x) by (destruct s; cbn [signed]; [rewrite Qabs_opp|]; now apply Qabs_pos).
  exists (Zdigits2 mx + ex)%Z, (if s then (- n)%Z else n). rewrite A. repeat split; [| | |exact Er].
  - apply Qle_trans with (2 := L). replace (Zdigits2 mx + ex - 1)%Z with (Zdigits2 mx - 1 + ex)%Z by lia.
    rewrite p2_plus, (p2_Z (Zdigits2 mx - 1)) by lia.
    apply Qmult_le_compat_r; [|apply Qlt_le_weak, p2_pos]. rewrite <- Zle_Qle. lia.
  - apply Qlt_le_trans with (1 := U). rewrite (p2_plus (Zdigits2 mx)), (p2_Z (Zdigits2 mx)) by lia.
    apply Qmult_le_compat_r; [|apply Qlt_le_weak, p2_pos]. change 1 with (inject_Z 1).
    rewrite <- inject_Z_plus, <- Zle_Qle. lia.
  - rewrite V. destruct s; cbn [signed]; [rewrite inject_Z_opp; ring|reflexivity].
Qed.

Lemma round_ok s m e : inject_Z (Zpos m) * p2 e <= maxf ->
  let x := signed s (inject_Z (Zpos m) * p2 e) in
  let r := binary_round prec emax s m e in
  rounded r x /\ (r = S754_zero s \/ exists m e, r = S754_finite s m e).
Proof.
  intros Hov x. unfold binary_round.
  set (f := fexp prec emax (Z.pos (digits2_pos m) + e)).
  assert (G : exists mz ez, shl_align m e f = (mz, ez) /\ (Zdigits2 (Zpos mz) + ez = Zdigits2 (Zpos m) + e)%Z /\
    (ez <= f)%Z /\ inject_Z (Zpos mz) * p2 ez == inject_Z (Zpos m) * p2 e).
  { unfold shl_align. destruct (f - e)%Z as [|q|q] eqn:E.
    - exists m, e. split; [reflexivity|split; [reflexivity|split; [lia|reflexivity]]].
    - exists m, e. split; [reflexivity|split; [reflexivity|split; [lia|reflexivity]]].
    - exists (shift_pos q m), f. split; [reflexivity|]. rewrite shift_pos_correct. change (Z.pow_pos 2 q) with (2 ^ Zpos q)%Z.
      assert (Ef : (f = e - Zpos q)%Z) by lia.
      split; [|split; [lia|]].
      + destruct (Zdigits_bounds (Zpos m) ltac:(lia)) as (D1 & D2).
        rewrite (Zdigits_unique (2 ^ Zpos q * Zpos m) (Zdigits2 (Zpos m) + Zpos q)); [lia|nia|].
        replace (Zdigits2 (Zpos m) + Zpos q - 1)%Z with (Zpos q + (Zdigits2 (Zpos m) - 1))%Z by lia.
        rewrite (Z.add_comm (Zdigits2 _)), !Z.pow_add_r by lia.
        assert (0 < 2 ^ Zpos q)%Z by (apply Z.pow_pos_nonneg; lia). nia.
      + rewrite inject_Z_mult, <- (p2_Z (Zpos q)) by lia. rewrite Ef.
        replace e with (e - Zpos q + Zpos q)%Z at 2 by lia. rewrite p2_plus. ring. }
  destruct G as (mz & ez & -> & Gd & Ge & Gv).
  assert (X : inb (Zpos mz) ez loc_Exact (inject_Z (Zpos m) * p2 e)) by (cbn [inb]; now rewrite Gv).
  apply (aux_rounded s (Zpos mz) ez loc_Exact _ ltac:(lia) X); [rewrite Gd; exact Ge|exact Hov].
Qed.

Lemma normalize_ok m e z : Qabs (inject_Z m * p2 e) <= maxf ->
  rounded (binary_normalize prec emax m e z) (inject_Z m * p2 e).
Proof.
  intros H. rewrite Qabs_Qmult, (Qabs_pos (p2 e)) in H by apply Qlt_le_weak, p2_pos.
  destruct m as [|p|p]; cbn [binary_normalize] in *.
  - split; [exact I|]. left. split; [apply Qmult_0_l|reflexivity].
  - exact (proj1 (round_ok false p e H)).
  - pose proof (proj1 (round_ok true p e H)) as R. cbn [signed] in R.
    change (inject_Z (Z.neg p)) with (- inject_Z (Z.pos p)).
    setoid_replace (- inject_Z (Z.pos p) * p2 e) with (- (inject_Z (Z.pos p) * p2 e)) by ring. exact R.
Qed.

(** ** Exactness *)
Lemma aux_exact s m e : fexp prec emax (Zpos (digits2_pos m) + e) = e -> (e <= emax - prec)%Z ->
  binary_round_aux prec emax s (Zpos m) e loc_Exact = S754_finite s m e.
Proof.
  intros F He. unfold binary_round_aux, shr_fexp. cbn [Zdigits2]. rewrite F, Z.sub_diag. cbn [shr shr_record_of_loc shr_m loc_of_shr_record round_nearest_even].
  cbn [Zdigits2]. rewrite F, Z.sub_diag. cbn [shr shr_m].
  destruct (Z.leb_spec e (emax - prec)); [reflexivity|lia].
Qed.
Lemma align_ok m e f : (f <= e)%Z -> exists mz, shl_align m e f = (mz, f) /\
  Zpos mz = (Zpos m * 2 ^ (e - f))%Z /\ Zdigits2 (Zpos mz) = (Zpos (digits2_pos m) + (e - f))%Z /\
  inject_Z (Zpos mz) * p2 f == inject_Z (Zpos m) * p2 e.
Proof.
  intros H. unfold shl_align. destruct (f - e)%Z as [|q|q] eqn:E; [|lia|].
  - exists m. assert (e = f) as -> by lia. rewrite Z.sub_diag.
    split; [reflexivity|split; [change (2 ^ 0)%Z with 1%Z; lia|split; [cbn [Zdigits2]; lia|reflexivity]]].
  - exists (shift_pos q m). split; [reflexivity|].
    rewrite shift_pos_correct. change (Z.pow_pos 2 q) with (2 ^ Zpos q)%Z.
    assert (Ef : (e - f = Zpos q)%Z) by lia. rewrite Ef.
    split; [ring|split].
    + pose proof (digits_bounds m) as D2.
      rewrite (Zdigits_unique (2 ^ Zpos q * Zpos m) (Zpos (digits2_pos m) + Zpos q)); [lia|nia|].
      replace (Zpos (digits2_pos m) + Zpos q - 1)%Z with (Zpos q + (Zpos (digits2_pos m) - 1))%Z by lia.
      rewrite (Z.add_comm (Zpos (digits2_pos m))), !Z.pow_add_r by lia.
      assert (0 < 2 ^ Zpos q)%Z by (apply Z.pow_pos_nonneg; lia). nia.
    + rewrite inject_Z_mult, <- (p2_Z (Zpos q)) by lia.
      replace e with (f + Zpos q)%Z by lia. rewrite p2_plus. ring.
Qed.
(** A value with at most [prec] digits and a large enough exponent is kept. *)
Lemma round_exact s m e : (Zpos (digits2_pos m) <= prec)%Z -> (emin prec emax <= e)%Z ->
  (Zpos (digits2_pos m) + e <= emax)%Z ->
  let r := binary_round prec emax s m e in
  canonical r /\ fval r == signed s (inject_Z (Zpos m) * p2 e).
Proof.
  intros Hd He Hov r. unfold r, binary_round.
  set (f := fexp prec emax (Z.pos (digits2_pos m) + e)).
  assert (Hf : (f <= e)%Z) by (unfold f, fexp; lia).
  destruct (align_ok m e f Hf) as (mz & -> & _ & Dz & Vz). cbn [Zdigits2] in Dz.
  assert (Cz : fexp prec emax (Zpos (digits2_pos mz) + f) = f).
  { rewrite Dz. replace (Zpos (digits2_pos m) + (e - f) + f)%Z with (Zpos (digits2_pos m) + e)%Z by lia. reflexivity. }
  assert (Of : (f <= emax - prec)%Z) by (unfold f, fexp, emin in *; lia).
  rewrite aux_exact by assumption. split; [split; assumption|].
  cbn [fval]. destruct s; cbn [signed]; now rewrite Vz.
Qed.
Lemma normalize_exact m e z : (Zdigits2 m <= prec)%Z -> (emin prec emax <= e)%Z -> (Zdigits2 m + e <= emax)%Z ->
  canonical (binary_normalize prec emax m e z) /\
  fval (binary_normalize prec emax m e z) == inject_Z m * p2 e.
Proof.
  intros D E O. destruct m as [|p|p]; cbn [binary_normalize Zdigits2] in *.
  - split; [exact I|]. cbn [fval]. ring.
  - exact (round_exact false p e D E O).
  - destruct (round_exact true p e D E O) as [C V]. split; [exact C|]. rewrite V. cbn [signed].
    change (inject_Z (Z.neg p)) with (- inject_Z (Z.pos p)). ring.
Qed.

Lemma canonical_split s m e : canonical (S754_finite s m e) ->
  (Zpos (digits2_pos m) = prec \/ e = emin prec emax) /\ (Zpos (digits2_pos m) <= prec)%Z /\
  (emin prec emax <= e <= emax - prec)%Z.
Proof. intros [F O]. unfold fexp in F. lia. Qed.
Lemma signed_mul s t x y : signed s x * signed t y == signed (xorb s t) (x * y).
Proof. destruct s, t; cbn [signed xorb]; ring. Qed.
Lemma signed_abs s x : 0 <= x -> Qabs (signed s x) == x.
Proof. intros H. destruct s; cbn [signed]; [rewrite Qabs_opp|]; now apply Qabs_pos. Qed.
Lemma pos_val m e : 0 < inject_Z (Zpos m) * p2 e.
Proof. apply Qmult_lt_0_compat; [reflexivity|apply p2_pos]. Qed.

(** ** The operations *)
Lemma mul_ok x y : canonical x -> canonical y -> Qabs (fval x * fval y) <= maxf ->
  rounded (SFmul prec emax x y) (fval x * fval y).
Proof.
  intros Cx Cy Hov.
  destruct x as [sx| | |sx mx ex]; [|contradiction|contradiction|];
  (destruct y as [sy| | |sy my ey]; [|contradiction|contradiction|]); cbn [SFmul fval].
  - apply rounded_exact; [exact I|]. cbn [fval]. ring.
  - apply rounded_exact; [exact I|]. cbn [fval]. ring.
  - apply rounded_exact; [exact I|]. cbn [fval]. ring.
  - destruct (canonical_split _ _ _ Cx) as (X1 & X2 & X3), (canonical_split _ _ _ Cy) as (Y1 & Y2 & Y3).
    cbn [fval] in Hov.
    assert (V : signed sx (inject_Z (Z.pos mx) * p2 ex) * signed sy (inject_Z (Z.pos my) * p2 ey) ==
                signed (xorb sx sy) (inject_Z (Zpos (mx * my)) * p2 (ex + ey))).
    { rewrite signed_mul, p2_plus, Pos2Z.inj_mul, inject_Z_mult. destruct (xorb sx sy); cbn [signed]; ring. }
    rewrite V in Hov. rewrite signed_abs in Hov by apply Qlt_le_weak, pos_val.
    assert (B : inb (Zpos (mx * my)) (ex + ey) loc_Exact (inject_Z (Zpos (mx * my)) * p2 (ex + ey))) by (cbn [inb]; reflexivity).
    assert (D : (Zpos (digits2_pos mx) + Zpos (digits2_pos my) - 1 <= Zdigits2 (Zpos (mx * my)))%Z).
    { destruct (Zdigits_bounds (Zpos (mx * my)) ltac:(lia)) as (P & L).
      pose proof (digits_bounds mx) as Lx. pose proof (digits_bounds my) as Ly.
      assert (A : (2 ^ (Zpos (digits2_pos mx) - 1 + (Zpos (digits2_pos my) - 1)) < 2 ^ Zdigits2 (Zpos (mx * my)))%Z).
      { rewrite Z.pow_add_r by lia. apply Z.le_lt_trans with (Zpos mx * Zpos my)%Z; [|lia].
        apply Z.mul_le_mono_nonneg; first [apply Z.pow_nonneg; lia|lia]. }
      apply Z.pow_lt_mono_r_iff in A; lia. }
    assert (F : (ex + ey <= fexp prec emax (Zdigits2 (Zpos (mx * my)) + (ex + ey)))%Z).
    { clear - X1 X2 X3 Y1 Y2 Y3 D Hprec Hemax. unfold fexp, emin in *. destruct X1 as [X1|X1], Y1 as [Y1|Y1]; lia. }
    rewrite V. exact (proj1 (aux_rounded (xorb sx sy) _ _ _ _ (Pos2Z.is_pos (mx * my)) B F Hov)).
Qed.

(** The grid of the result of a positive product. *)
Lemma mul_grid mx ex my ey : canonical (S754_finite false mx ex) -> canonical (S754_finite false my ey) ->
  let p := inject_Z (Zpos mx) * p2 ex * (inject_Z (Zpos my) * p2 ey) in p <= maxf ->
  let r := SFmul prec emax (S754_finite false mx ex) (S754_finite false my ey) in
  (r = S754_zero false \/ exists m e, r = S754_finite false m e) /\
  exists d n, p2 (d - 1) <= p /\ p < p2 d /\ fval r == inject_Z n * p2 (fexp prec emax d) /\
    Qabs (inject_Z n * p2 (fexp prec emax d) - p) <= (1 # 2) * p2 (fexp prec emax d).
Proof.
  intros Cx Cy p Hov. cbn [SFmul xorb].
  destruct (canonical_split _ _ _ Cx) as (X1 & X2 & X3), (canonical_split _ _ _ Cy) as (Y1 & Y2 & Y3).
  assert (V : p == inject_Z (Zpos (mx * my)) * p2 (ex + ey)).
  { unfold p. rewrite p2_plus, Pos2Z.inj_mul, inject_Z_mult. ring. }
  assert (B : inb (Zpos (mx * my)) (ex + ey) loc_Exact p) by (cbn [inb]; exact V).
  destruct (Zdigits_bounds (Zpos (mx * my)) ltac:(lia)) as (P & L).
  assert (D : (Zpos (digits2_pos mx) + Zpos (digits2_pos my) - 1 <= Zdigits2 (Zpos (mx * my)))%Z).
  { pose proof (digits_bounds mx) as Lx. pose proof (digits_bounds my) as Ly.
    assert (A : (2 ^ (Zpos (digits2_pos mx) - 1 + (Zpos (digits2_pos my) - 1)) < 2 ^ Zdigits2 (Zpos (mx * my)))%Z).
    { rewrite Z.pow_add_r by lia. apply Z.le_lt_trans with (Zpos mx * Zpos my)%Z; [|lia].
      apply Z.mul_le_mono_nonneg; first [apply Z.pow_nonneg; lia|lia]. }
    apply Z.pow_lt_mono_r_iff in A; lia. }
  assert (F : (ex + ey <= fexp prec emax (Zdigits2 (Zpos (mx * my)) + (ex + ey)))%Z).
  { clear - X1 X2 X3 Y1 Y2 Y3 D Hprec Hemax. unfold fexp, emin in *. destruct X1 as [X1|X1], Y1 as [Y1|Y1]; lia. }
  destruct (aux_ok false _ _ _ _ (Pos2Z.is_pos (mx * my)) B F Hov) as (_ & S & (n & N1 & N2) & _).
  split; [exact S|]. exists (Zdigits2 (Zpos (mx * my)) + (ex + ey))%Z, n. repeat split; [| |exact N1|exact N2].
  - replace (Zdigits2 (Z.pos (mx * my)) + (ex + ey) - 1)%Z with (Zdigits2 (Z.pos (mx * my)) - 1 + (ex + ey))%Z by lia.
    rewrite V, p2_plus, (p2_Z (Zdigits2 (Zpos (mx * my)) - 1)) by lia.
    apply Qmult_le_compat_r; [|apply Qlt_le_weak, p2_pos]. rewrite <- Zle_Qle. lia.
  - rewrite V, (p2_plus (Zdigits2 (Zpos (mx * my)))), (p2_Z (Zdigits2 (Zpos (mx * my)))) by lia.
    apply Qmult_lt_compat_r; [apply p2_pos|]. rewrite <- Zlt_Qlt. lia.
Qed.

Lemma cond_opp_val s m e : inject_Z (cond_Zopp s (Zpos m)) * p2 e == signed s (inject_Z (Zpos m) * p2 e).
Proof. destruct s; cbn [cond_Zopp signed]; [rewrite inject_Z_opp|]; ring. Qed.
Lemma signed_compat s x y : x == y -> signed s x == signed s y.
Proof. intros E. destruct s; cbn [signed]; now rewrite E. Qed.
Lemma add_ok x y : canonical x -> canonical y -> Qabs (fval x + fval y) <= maxf ->
  rounded (SFadd prec emax x y) (fval x + fval y).
Proof.
  intros Cx Cy Hov.
  destruct x as [sx| | |sx mx ex]; [|contradiction|contradiction|];
  (destruct y as [sy| | |sy my ey]; [|contradiction|contradiction|]); cbn [SFadd fval].
  - apply rounded_exact; [|cbn [fval]]; destruct (eqb sx sy); try exact I; cbn [fval]; ring.
  - apply rounded_exact; [exact Cy|]. cbn [fval]. ring.
  - apply rounded_exact; [exact Cx|]. cbn [fval]. ring.
  - cbn zeta. set (ez := Z.min ex ey).
    destruct (align_ok mx ex ez ltac:(lia)) as (nx & -> & _ & _ & Vx).
    destruct (align_ok my ey ez ltac:(lia)) as (ny & -> & _ & _ & Vy). cbn [fst].
    assert (V : signed sx (inject_Z (Z.pos mx) * p2 ex) + signed sy (inject_Z (Z.pos my) * p2 ey) ==
                inject_Z (cond_Zopp sx (Zpos nx) + cond_Zopp sy (Zpos ny)) * p2 ez).
    { rewrite inject_Z_plus, Qmult_plus_distr_l, !cond_opp_val.
      rewrite (signed_compat sx _ _ Vx), (signed_compat sy _ _ Vy). reflexivity. }
    cbn [fval] in Hov. rewrite V in Hov. rewrite V. exact (normalize_ok _ ez false Hov).
Qed.
Lemma sub_ok x y : canonical x -> canonical y -> Qabs (fval x - fval y) <= maxf ->
  rounded (SFsub prec emax x y) (fval x - fval y).
Proof.
  intros Cx Cy Hov.
  destruct x as [sx| | |sx mx ex]; [|contradiction|contradiction|];
  (destruct y as [sy| | |sy my ey]; [|contradiction|contradiction|]); cbn [SFsub fval].
  - apply rounded_exact; [|cbn [fval]]; destruct (eqb sx (negb sy)); try exact I; cbn [fval]; ring.
  - apply rounded_exact; [exact Cy|]. cbn [fval]. destruct sy; cbn [negb signed]; ring.
  - apply rounded_exact; [exact Cx|]. cbn [fval]. ring.
  - cbn zeta. set (ez := Z.min ex ey).
    destruct (align_ok mx ex ez ltac:(lia)) as (nx & -> & _ & _ & Vx).
    destruct (align_ok my ey ez ltac:(lia)) as (ny & -> & _ & _ & Vy). cbn [fst].
    assert (V : signed sx (inject_Z (Z.pos mx) * p2 ex) - signed sy (inject_Z (Z.pos my) * p2 ey) ==
                inject_Z (cond_Zopp sx (Zpos nx) - cond_Zopp sy (Zpos ny)) * p2 ez).
    { unfold Zminus. rewrite inject_Z_plus, inject_Z_opp, Qmult_plus_distr_l, cond_opp_val.
      setoid_replace (- inject_Z (cond_Zopp sy (Z.pos ny)) * p2 ez) with (- (inject_Z (cond_Zopp sy (Z.pos ny)) * p2 ez)) by ring.
      rewrite cond_opp_val, (signed_compat sx _ _ Vx), (signed_compat sy _ _ Vy). reflexivity. }
    cbn [fval] in Hov. rewrite V in Hov. rewrite V. exact (normalize_ok _ ez false Hov).
Qed.

(** Division with a normal quotient. *)
Lemma new_location_ok q r n e x : (0 < n)%Z -> (0 <= r < n)%Z ->
  x == (inject_Z q + inject_Z r / inject_Z n) * p2 e -> inb q e (new_location n r) x.
Proof.
  intros Hn Hr V. pose proof (p2_pos e) as P.
  assert (Qn : 0 < inject_Z n) by (change 0 with (inject_Z 0); rewrite <- Zlt_Qlt; lia).
  set (t := inject_Z r / inject_Z n) in *.
  assert (T : inject_Z r == t * inject_Z n) by (unfold t; field; lra).
  assert (T0 : (0 < r)%Z -> 0 < t).
  { intros H. unfold t. apply Qlt_shift_div_l; [exact Qn|]. rewrite Qmult_0_l. change 0 with (inject_Z 0). rewrite <- Zlt_Qlt. lia. }
  assert (T1 : t < 1).
  { unfold t. apply Qlt_shift_div_r; [exact Qn|]. rewrite Qmult_1_l, <- Zlt_Qlt. lia. }
  assert (Hlt : (2 * r < n)%Z -> t < 1 # 2).
  { intros H. unfold t. apply Qlt_shift_div_r; [exact Qn|].
    assert (K : inject_Z (2 * r) < inject_Z n) by (rewrite <- Zlt_Qlt; lia). rewrite inject_Z_mult in K. change (inject_Z 2) with 2 in K. lra. }
  assert (Hgt : (n < 2 * r)%Z -> 1 # 2 < t).
  { intros H. unfold t. apply Qlt_shift_div_l; [exact Qn|].
    assert (K : inject_Z n < inject_Z (2 * r)) by (rewrite <- Zlt_Qlt; lia). rewrite inject_Z_mult in K. change (inject_Z 2) with 2 in K. lra. }
  assert (Heq : (2 * r = n)%Z -> t == 1 # 2).
  { intros H. assert (K : inject_Z (2 * r) == inject_Z n) by now rewrite H. rewrite inject_Z_mult in K. change (inject_Z 2) with 2 in K.
    unfold t. rewrite <- K. field. rewrite <- K in Qn. lra. }
  assert (G : forall w, w < t -> (inject_Z q + w) * p2 e < x).
  { intros w H. rewrite V. apply Qmult_lt_compat_r; [exact P|]. lra. }
  assert (L : forall w, t < w -> x < (inject_Z q + w) * p2 e).
  { intros w H. rewrite V. apply Qmult_lt_compat_r; [exact P|]. lra. }
  assert (Z0 : (inject_Z q + 0) * p2 e == inject_Z q * p2 e) by ring.
  unfold new_location, new_location_even, new_location_odd.
  destruct (Z.even n) eqn:Ev.
  - destruct (Zeq_bool r 0) eqn:Er.
    + apply Zeq_bool_eq in Er. cbn [inb]. rewrite V. unfold t. rewrite Er. change (inject_Z 0) with 0. field. lra.
    + apply Zeq_bool_neq in Er. destruct (Z.compare_spec (2 * r) n) as [C|C|C]; cbn [inb].
      * now rewrite V, (Heq C).
      * split; [rewrite <- Z0; apply G, T0; lia|apply L, Hlt, C].
      * split; [apply G, Hgt, C|apply L, T1].
  - assert (Hodd : n <> (2 * r)%Z) by (intros ->; rewrite Z.even_mul in Ev; discriminate).
    destruct (Zeq_bool r 0) eqn:Er.
    + apply Zeq_bool_eq in Er. cbn [inb]. rewrite V. unfold t. rewrite Er. change (inject_Z 0) with 0. field. lra.
    + apply Zeq_bool_neq in Er. destruct (Z.compare_spec (2 * r + 1) n) as [C|C|C]; cbn [inb].
      * split; [rewrite <- Z0; apply G, T0; lia|apply L, Hlt; lia].
      * split; [rewrite <- Z0; apply G, T0; lia|apply L, Hlt; lia].
      * split; [apply G, Hgt; lia|apply L, T1].
Qed.

Lemma div_ok sx mx ex sy my ey :
  (emin prec emax + prec <= Zpos (digits2_pos mx) + ex - (Zpos (digits2_pos my) + ey))%Z ->
  let x := S754_finite sx mx ex in let y := S754_finite sy my ey in
  Qabs (fval x / fval y) <= maxf ->
  rounded (SFdiv prec emax x y) (fval x / fval y).
Proof.
  intros Hn x y Hov. unfold x, y in *. cbn [SFdiv]. unfold SFdiv_core_binary. cbn [Zdigits2].
  set (d1 := Zpos (digits2_pos mx)) in *. set (d2 := Zpos (digits2_pos my)) in *.
  set (f := fexp prec emax (d1 + ex - (d2 + ey))).
  assert (Ef : f = (d1 + ex - (d2 + ey) - prec)%Z) by (unfold f, fexp; lia).
  set (e' := Z.min f (ex - ey)). set (s := (ex - ey - e')%Z).
  assert (Hs : (0 <= s)%Z) by (unfold s, e'; lia).
  assert (M : match s with Z0 => Zpos mx | Zpos _ => Z.shiftl (Zpos mx) s | Zneg _ => 0%Z end = (Zpos mx * 2 ^ s)%Z).
  { destruct s as [|q|q] eqn:Es; [change (2 ^ 0)%Z with 1%Z; lia| |lia]. apply Z.shiftl_mul_pow2. lia. }
  rewrite M. pose proof (Z_div_mod (Zpos mx * 2 ^ s) (Zpos my) ltac:(lia)) as DM.
  destruct (Z.div_eucl (Z.pos mx * 2 ^ s) (Z.pos my)) as [q r]. destruct DM as [Eq Hr].
  pose proof (digits_bounds mx) as Bx. pose proof (digits_bounds my) as By. fold d1 in Bx. fold d2 in By.
  assert (Hd : (0 < d1 /\ 0 < d2)%Z) by (unfold d1, d2; lia).
  assert (Hs2 : (d2 - d1 + prec <= s)%Z) by (unfold s, e'; lia).
  assert (Bm : (2 ^ (d1 - 1 + s) <= Zpos mx * 2 ^ s)%Z).
  { rewrite Z.pow_add_r by lia. apply Z.mul_le_mono_nonneg_r; [apply Z.pow_nonneg; lia|lia]. }
  assert (Lq : (2 ^ (d1 - 1 + s - d2) <= q)%Z).
  { assert (K : (2 ^ (d1 - 1 + s) = 2 ^ d2 * 2 ^ (d1 - 1 + s - d2))%Z).
    { rewrite <- Z.pow_add_r by lia. f_equal. lia. }
    set (t := (2 ^ (d1 - 1 + s - d2))%Z) in *.
    assert (0 < t)%Z by (apply Z.pow_pos_nonneg; lia). nia. }
  assert (Hq : (0 < q)%Z).
  { apply Z.lt_le_trans with (2 := Lq). apply Z.pow_pos_nonneg; lia. }
  destruct (Zdigits_bounds q Hq) as (Pq & Bq).
  assert (Dq : (d1 + s - d2 <= Zdigits2 q)%Z).
  { assert (A : (2 ^ (d1 - 1 + s - d2) < 2 ^ Zdigits2 q)%Z) by lia. apply Z.pow_lt_mono_r_iff in A; lia. }
  set (v := inject_Z (Z.pos mx) * p2 ex / (inject_Z (Z.pos my) * p2 ey)).
  pose proof (p2_pos ex) as Px. pose proof (p2_pos ey) as Py.
  assert (Mx : 0 < inject_Z (Zpos mx)) by reflexivity. assert (My : 0 < inject_Z (Zpos my)) by reflexivity.
  assert (Vv : v == (inject_Z q + inject_Z r / inject_Z (Zpos my)) * p2 e').
  { assert (K : p2 ex == p2 s * (p2 e' * p2 ey)).
    { rewrite <- !p2_plus. replace (s + (e' + ey))%Z with ex by (unfold s; lia). reflexivity. }
    assert (K2 : inject_Z (Zpos mx) * p2 s == inject_Z (Zpos my) * inject_Z q + inject_Z r).
    { rewrite p2_Z by lia. rewrite <- !inject_Z_mult, <- inject_Z_plus, Eq. reflexivity. }
    unfold v. rewrite K.
    setoid_replace (inject_Z (Z.pos mx) * (p2 s * (p2 e' * p2 ey)) / (inject_Z (Z.pos my) * p2 ey))
      with ((inject_Z (Zpos mx) * p2 s) * p2 e' / inject_Z (Zpos my)) by (field; split; lra).
    rewrite K2. field. lra. }
  assert (V : fval (S754_finite sx mx ex) / fval (S754_finite sy my ey) == signed (xorb sx sy) v).
  { cbn [fval]. unfold v. destruct sx, sy; cbn [signed xorb]; field; repeat split; lra. }
  assert (Pv : 0 <= v).
  { unfold v. apply Qle_shift_div_l; [apply pos_val|]. rewrite Qmult_0_l. apply Qlt_le_weak, pos_val. }
  rewrite V, signed_abs in Hov by exact Pv.
  assert (B : inb q e' (new_location (Zpos my) r) v) by (apply new_location_ok; [lia|lia|exact Vv]).
  assert (F : (e' <= fexp prec emax (Zdigits2 q + e'))%Z) by (unfold fexp, s in *; lia).
  rewrite V. exact (proj1 (aux_rounded (xorb sx sy) q e' _ v Hq B F Hov)).
Qed.
End Format.
