(** Slot choice by weights, in binary64 arithmetic. *)
From Coq Require Import NArith ZArith QArith Qabs Qpower List Bool Lia Lqa Arith SpecFloat Morphisms.
From Verif Require Import Base.Word Model.Float Model.EncounterLA Spec.FloatSpec Spec.EncounterLASpec
  Proofs.FloatProofs Proofs.XorshiftFloat.
Import ListNotations.
Open Scope Q_scope.

(** ** Powers and sums *)
Lemma power_add x m n : power x (m + n) == power x m * power x n.
Proof. induction m as [|m IH]; cbn [power Nat.add]; [lra|]. rewrite IH. lra. Qed.
Lemma mul_le_l x a b : 0 <= x -> a <= b -> x * a <= x * b.
Proof. intros Hx H. rewrite !(Qmult_comm x). now apply Qmult_le_compat_r. Qed.
Lemma mul_lt_l x a b : 0 < x -> a < b -> x * a < x * b.
Proof. intros Hx H. rewrite !(Qmult_comm x). now apply Qmult_lt_compat_r. Qed.
Section Powers.
Context (d : Q) (D0 : 0 <= d) (D1 : d <= 1 # 2).
Set Default Proof Using "D0 D1".

Lemma up_ge_1 n : 1 <= power (1 + d) n.
Proof. induction n as [|n IH]; cbn [power]; [lra|nra]. Qed.
Lemma down_le_1 n : 0 <= power (1 - d) n /\ power (1 - d) n <= 1.
Proof. induction n as [|n [I1 I2]]; cbn [power]; split; nra. Qed.
Lemma down_pos n : 0 < power (1 - d) n.
Proof. induction n as [|n I]; cbn [power]; nra. Qed.
Lemma up_mono m n : (m <= n)%nat -> power (1 + d) m <= power (1 + d) n.
Proof.
  intros H. replace n with (m + (n - m))%nat by lia. rewrite power_add.
  pose proof (up_ge_1 m). pose proof (up_ge_1 (n - m)). nra.
Qed.
Lemma down_mono m n : (m <= n)%nat -> power (1 - d) n <= power (1 - d) m.
Proof.
  intros H. replace n with (m + (n - m))%nat by lia. rewrite power_add.
  pose proof (down_le_1 m) as [? ?]. pose proof (down_le_1 (n - m)) as [? ?]. nra.
Qed.
Lemma margin : forall k, inject_Z (Z.of_nat k) * d <= 1 ->
  power (1 + d) k * (1 - inject_Z (Z.of_nat k) * d) <= 1.
Proof.
  induction k as [|k IH]; intros H; [change (inject_Z (Z.of_nat 0)) with 0; cbn [power]; lra|].
  rewrite Nat2Z.inj_succ in H |- *. unfold Z.succ in *. rewrite inject_Z_plus in H |- *.
  change (inject_Z 1) with 1 in *. cbn [power].
  set (c := inject_Z (Z.of_nat k)) in *. assert (Hc : 0 <= c) by (unfold c, inject_Z, Qle; cbn; lia).
  specialize (IH ltac:(lra)). pose proof (up_ge_1 k) as P.
  apply Qle_trans with (2 := IH).
  setoid_replace ((1 + d) * power (1 + d) k * (1 - (c + 1) * d))
    with (power (1 + d) k * ((1 + d) * (1 - (c + 1) * d))) by ring.
  apply mul_le_l; [lra|]. assert (0 <= (c + 1) * (d * d)) by (apply Qmult_le_0_compat; nra). lra.
Qed.
Lemma bernoulli : forall k, 1 - inject_Z (Z.of_nat k) * d <= power (1 - d) k.
Proof.
  induction k as [|k IH]; [change (inject_Z (Z.of_nat 0)) with 0; cbn [power]; lra|].
  rewrite Nat2Z.inj_succ. unfold Z.succ. rewrite inject_Z_plus. change (inject_Z 1) with 1. cbn [power].
  pose proof (down_le_1 k) as [_ P].
  set (c := inject_Z (Z.of_nat k)) in *. set (p := power (1 - d) k) in *. nra.
Qed.
End Powers.
Unset Default Proof Using.
Lemma ulp0 : 0 <= ulp. Proof. discriminate. Qed.
Lemma ulp1 : ulp <= 1 # 2. Proof. discriminate. Qed.
Lemma small_count k : (Z.of_nat k <= 2 ^ 22)%Z -> inject_Z (Z.of_nat k) * ulp <= 1 # 2147483648.
Proof.
  intros H. apply Qle_trans with (inject_Z (2 ^ 22) * ulp); [|discriminate].
  apply Qmult_le_compat_r; [|discriminate]. rewrite <- Zle_Qle. exact H.
Qed.
Lemma up_le_2 k : (Z.of_nat k <= 2 ^ 22)%Z -> power (1 + ulp) k <= 2.
Proof.
  intros H. pose proof (small_count k H) as C.
  pose proof (margin ulp ulp0 ulp1 k ltac:(lra)) as M.
  pose proof (up_ge_1 ulp ulp0 ulp1 k) as P. set (c := inject_Z _ * ulp) in *. set (p := power _ _) in *. nra.
Qed.
Lemma down_ge_half k : (Z.of_nat k <= 2 ^ 22)%Z -> 1 # 2 <= power (1 - ulp) k.
Proof. intros H. pose proof (small_count k H) as C. pose proof (bernoulli ulp ulp0 ulp1 k). lra. Qed.

Lemma sum_nonneg l : Forall (Qle 0) l -> 0 <= sum l.
Proof. induction 1; cbn [sum]; lra. Qed.
Lemma sum_le l x : Forall (fun y => y <= x) l -> sum l <= inject_Z (Z.of_nat (length l)) * x.
Proof.
  induction 1 as [|y l Hy Hl IH]; cbn [sum length]; [change (inject_Z (Z.of_nat 0)) with 0; lra|].
  rewrite Nat2Z.inj_succ. unfold Z.succ. rewrite inject_Z_plus. change (inject_Z 1) with 1. lra.
Qed.

(** ** Operations on finite numbers that are not negative *)
Definition good (x : spec_float) : Prop := canonical 53 1024 x /\ 0 <= fval x.
Definition near (x r : Q) : Prop := (1 - ulp) * x <= r /\ r <= (1 + ulp) * x.
#[global] Instance near_Proper : Proper (Qeq ==> Qeq ==> iff) near.
Proof. intros x x' E y y' F. unfold near. now rewrite E, F. Qed.

Lemma near_refl x y : 0 <= x -> y == x -> near x y.
Proof.
  intros H E. unfold near. assert (K : 0 <= ulp * x) by (apply Qmult_le_0_compat; [exact ulp0|exact H]).
  rewrite E. split; lra.
Qed.
Lemma near_nonneg x y : 0 <= x -> near x y -> 0 <= y.
Proof. intros H [L _]. apply Qle_trans with (2 := L). apply Qmult_le_0_compat; [discriminate|exact H]. Qed.
Lemma rounded_near r x : rounded 53 1024 r x -> 0 <= x -> x == 0 \/ p2 (-1022) <= x -> near x (fval r).
Proof.
  intros R H0 [E|G].
  - apply near_refl; [exact H0|]. destruct R as [_ [[A B]|(d & n & L & _)]]; [now rewrite A, B|].
    exfalso. rewrite E in L. change (Qabs 0) with 0 in L. pose proof (p2_pos (d - 1)). lra.
  - assert (A : Qabs x == x) by now apply Qabs_pos.
    pose proof (rounded_rel 53 1024 _ _ R) as K. rewrite A in K.
    change (emin 53 1024 + 53 - 1)%Z with (-1022)%Z in K. specialize (K G).
    change (u 53) with ulp in K. apply Qabs_Qle_condition in K. unfold near. lra.
Qed.
(** On the grid of the smallest numbers rounding is exact. *)
Lemma grid x : canonical 53 1024 x -> exists k, fval x == inject_Z k * p2 (-1074).
Proof.
  destruct x as [s| | |s m e]; try contradiction; [exists 0%Z; cbn; ring|].
  intros C. destruct (canonical_split _ _ _ _ _ C) as (_ & _ & E & _). change (emin 53 1024) with (-1074)%Z in E.
  exists (cond_Zopp s (Zpos m) * 2 ^ (e + 1074))%Z. cbn [fval].
  rewrite <- cond_opp_val, inject_Z_mult, <- (p2_Z (e + 1074)) by lia.
  replace e with (e + 1074 + -1074)%Z at 1 by lia. rewrite p2_plus. ring.
Qed.
Lemma rounded_grid r x k : rounded 53 1024 r x -> 0 <= x -> x == inject_Z k * p2 (-1074) -> near x (fval r).
Proof.
  intros R H0 E. destruct (Qlt_le_dec x (p2 (-1022))) as [L|G]; [|apply rounded_near; auto].
  apply near_refl; [exact H0|].
  assert (Hk : (0 <= k < 2 ^ 52)%Z).
  { rewrite E in H0, L. change (-1022)%Z with (52 + -1074)%Z in L. rewrite p2_plus, (p2_Z 52) in L by lia.
    pose proof (p2_pos (-1074)) as P. split.
    - rewrite Zle_Qle. change (inject_Z 0) with 0. apply Qmult_le_r with (p2 (-1074)); [exact P|]. lra.
    - rewrite Zlt_Qlt. apply Qmult_lt_r with (p2 (-1074)); [exact P|]. exact L. }
  destruct (normalize_exact 53 1024 ltac:(lia) ltac:(lia) k (-1074) false) as [C V].
  - pose proof (Zdigits_le k 52 ltac:(lia) Hk). lia.
  - discriminate.
  - pose proof (Zdigits_le k 52 ltac:(lia) Hk). lia.
  - rewrite <- E in V. exact (rounded_fixed 53 1024 _ _ _ R C V).
Qed.
Lemma in_range x : 0 <= x -> x <= p2 900 -> Qabs x <= maxf 53 1024.
Proof. intros H0 H. rewrite Qabs_pos by exact H0. apply Qle_trans with (1 := H). exact max64. Qed.

Lemma mul_near x y : good x -> good y -> fval x * fval y <= p2 900 ->
  fval x * fval y == 0 \/ p2 (-1022) <= fval x * fval y ->
  good (f64_mul x y) /\ near (fval x * fval y) (fval (f64_mul x y)).
Proof.
  intros [Cx Px] [Cy Py] H G. assert (H0 : 0 <= fval x * fval y) by now apply Qmult_le_0_compat.
  pose proof (mul_ok 53 1024 ltac:(lia) ltac:(lia) x y Cx Cy (in_range _ H0 H)) as R.
  pose proof (rounded_near _ _ R H0 G) as K. split; [|exact K]. split; [apply R|]. exact (near_nonneg _ _ H0 K).
Qed.
Lemma add_near x y : good x -> good y -> fval x + fval y <= p2 900 ->
  good (f64_add x y) /\ near (fval x + fval y) (fval (f64_add x y)).
Proof.
  intros [Cx Px] [Cy Py] H. assert (H0 : 0 <= fval x + fval y) by lra.
  pose proof (add_ok 53 1024 ltac:(lia) ltac:(lia) x y Cx Cy (in_range _ H0 H)) as R.
  destruct (grid x Cx) as [i Ei]. destruct (grid y Cy) as [j Ej].
  assert (E : fval x + fval y == inject_Z (i + j) * p2 (-1074)) by (rewrite inject_Z_plus, Ei, Ej; ring).
  pose proof (rounded_grid _ _ _ R H0 E) as K. split; [|exact K]. split; [apply R|]. exact (near_nonneg _ _ H0 K).
Qed.
Lemma sub_near x y : good x -> good y -> fval y <= fval x -> fval x <= p2 900 ->
  good (f64_sub x y) /\ near (fval x - fval y) (fval (f64_sub x y)).
Proof.
  intros [Cx Px] [Cy Py] H G. assert (H0 : 0 <= fval x - fval y) by lra. assert (H1 : fval x - fval y <= p2 900) by lra.
  pose proof (sub_ok 53 1024 ltac:(lia) ltac:(lia) x y Cx Cy (in_range _ H0 H1)) as R.
  destruct (grid x Cx) as [i Ei]. destruct (grid y Cy) as [j Ej].
  assert (E : fval x - fval y == inject_Z (i - j) * p2 (-1074)).
  { unfold Zminus. rewrite inject_Z_plus, inject_Z_opp, Ei, Ej. ring. }
  pose proof (rounded_grid _ _ _ R H0 E) as K. split; [|exact K]. split; [apply R|]. exact (near_nonneg _ _ H0 K).
Qed.

(** Comparison. *)
Lemma finite_positive s m e : 0 <= fval (S754_finite s m e) -> s = false.
Proof. destruct s; [|reflexivity]. cbn [fval signed]. pose proof (pos_val m e). intros. exfalso. lra. Qed.
Lemma exponent_order m e m' e' : canonical 53 1024 (S754_finite false m e) -> canonical 53 1024 (S754_finite false m' e') ->
  (e < e')%Z -> inject_Z (Zpos m) * p2 e < inject_Z (Zpos m') * p2 e'.
Proof.
  intros C C' H. destruct (canonical_split _ _ _ _ _ C) as (_ & D & E & _).
  destruct (canonical_split _ _ _ _ _ C') as (D' & _ & _). destruct D' as [D'|D']; [|lia].
  pose proof (digits_bounds m) as B. pose proof (digits_bounds m') as B'. rewrite D' in B'.
  assert (M : (2 ^ Zpos (digits2_pos m) <= 2 ^ 53)%Z) by (apply Z.pow_le_mono_r; lia).
  apply Qlt_le_trans with (inject_Z (2 ^ 53) * p2 e).
  - apply Qmult_lt_compat_r; [apply p2_pos|]. rewrite <- Zlt_Qlt. lia.
  - apply Qle_trans with (inject_Z (2 ^ 52) * p2 e').
    + rewrite <- !(p2_Z) by lia. rewrite <- !p2_plus. apply p2_le. lia.
    + apply Qmult_le_compat_r; [|apply Qlt_le_weak, p2_pos]. rewrite <- Zle_Qle. lia.
Qed.
Lemma ltb_ok x y : good x -> good y -> SFltb x y = true <-> fval x < fval y.
Proof.
  intros [Cx Px] [Cy Py].
  destruct x as [sx| | |sx mx ex]; [|contradiction|contradiction|];
  (destruct y as [sy| | |sy my ey]; [|contradiction|contradiction|]);
  unfold SFltb; cbn [SFcompare].
  - cbn. split; [discriminate|]. intros H. exfalso. lra.
  - rewrite (finite_positive _ _ _ Py). cbn [fval signed]. pose proof (pos_val my ey). split; [intros _; lra|reflexivity].
  - rewrite (finite_positive _ _ _ Px). cbn [fval signed]. pose proof (pos_val mx ex). split; [discriminate|intros; exfalso; lra].
  - rewrite (finite_positive _ _ _ Px), (finite_positive _ _ _ Py) in *. cbn [fval signed].
    destruct (Z.compare_spec ex ey) as [E|L|G].
    + subst ey. change (Pos.compare_cont Eq mx my) with (Pos.compare mx my).
      assert (K : inject_Z (Zpos mx) * p2 ex < inject_Z (Zpos my) * p2 ex <-> (mx < my)%positive).
      { rewrite Qmult_lt_r by apply p2_pos. rewrite <- Zlt_Qlt. reflexivity. }
      rewrite K. destruct (Pos.compare_spec mx my); split; intros; try discriminate; try reflexivity; lia.
    + split; [intros _; now apply exponent_order|reflexivity].
    + pose proof (exponent_order _ _ _ _ Cy Cx G). split; [discriminate|intros; exfalso; lra].
Qed.

(** ** The total and the walk *)
Notation fvals := (map fval).
Lemma goods_nonneg l : Forall good l -> Forall (Qle 0) (fvals l).
Proof. induction 1 as [|x l [_ H] Hl IH]; constructor; assumption. Qed.

Lemma fold_bounds : forall l a, good a -> Forall good l ->
  power (1 + ulp) (length l) * (fval a + sum (fvals l)) <= p2 900 ->
  good (fold_left f64_add l a) /\
  power (1 - ulp) (length l) * (fval a + sum (fvals l)) <= fval (fold_left f64_add l a) /\
  fval (fold_left f64_add l a) <= power (1 + ulp) (length l) * (fval a + sum (fvals l)).
Proof.
  induction l as [|x l IH]; intros a Ha Hl Hm; cbn [fold_left length power sum map] in *.
  { split; [exact Ha|]. split; lra. }
  inversion Hl as [|? ? Hx Hl']; subst.
  pose proof (sum_nonneg _ (goods_nonneg l Hl')) as Hs.
  pose proof (up_ge_1 ulp ulp0 ulp1 (length l)) as Hu. pose proof (down_le_1 ulp ulp0 ulp1 (length l)) as [Hd1 Hd2].
  pose proof ulp0 as U0. pose proof ulp1 as U1.
  set (S := sum (fvals l)) in *. set (P := power (1 + ulp) (length l)) in *. set (D := power (1 - ulp) (length l)) in *.
  assert (Pa : 0 <= fval a) by apply Ha. assert (Px : 0 <= fval x) by apply Hx.
  assert (Q1 : 1 * (fval a + (fval x + S)) <= (1 + ulp) * P * (fval a + (fval x + S))).
  { apply Qmult_le_compat_r; [nra|lra]. }
  destruct (add_near a x Ha Hx) as [G [L U]]; [lra|].
  assert (H1 : P * (fval (f64_add a x) + S) <= (1 + ulp) * P * (fval a + (fval x + S))).
  { setoid_replace ((1 + ulp) * P * (fval a + (fval x + S))) with (P * ((1 + ulp) * (fval a + fval x) + (1 + ulp) * S)) by ring.
    apply mul_le_l; [lra|]. nra. }
  destruct (IH _ G Hl') as (G' & L' & U'); [fold S P; lra|]. fold S P D in L', U'.
  split; [exact G'|]. split; [|lra].
  apply Qle_trans with (2 := L').
  setoid_replace ((1 - ulp) * D * (fval a + (fval x + S))) with (D * ((1 - ulp) * (fval a + fval x) + (1 - ulp) * S)) by ring.
  apply mul_le_l; [exact Hd1|]. nra.
Qed.
Lemma total_bounds l : Forall good l -> power (1 + ulp) (length l) * sum (fvals l) <= p2 900 ->
  good (total l) /\ power (1 - ulp) (length l) * sum (fvals l) <= fval (total l) /\
  fval (total l) <= power (1 + ulp) (length l) * sum (fvals l).
Proof.
  intros H Hm. assert (E : fval (S754_zero false) + sum (fvals l) == sum (fvals l)) by (cbn [fval]; ring).
  assert (G0 : good (S754_zero false)) by (split; [exact I|discriminate]).
  destruct (fold_bounds l (S754_zero false) G0 H) as (G & L & U); [rewrite E; exact Hm|].
  rewrite E in L, U. now split.
Qed.

Lemma walk_shift : forall l s i, walk s i l = (i + walk s 0 l)%nat.
Proof.
  induction l as [|p l IH]; intros s i; cbn [walk]; [lia|]. destruct l as [|q l]; [lia|].
  destruct (SFltb s p); [lia|]. rewrite (IH _ (S i)), (IH _ 1%nat). lia.
Qed.

(** The walk: either it stops at a slot of positive weight, or it falls through at the end. *)
Lemma walk_bounds : forall l s, l <> [] -> good s -> Forall good l -> power (1 + ulp) (length l) * fval s <= p2 900 ->
  let i := walk s 0 l in
  (i < length l)%nat /\
  sum (firstn i (fvals l)) <= power (1 + ulp) i * fval s /\
  ((power (1 - ulp) i * fval s < sum (firstn (S i) (fvals l)) /\ 0 < nth i (fvals l) 0) \/
   (S i = length l /\ sum (fvals l) <= power (1 + ulp) i * fval s)).
Proof.
  induction l as [|p l IH]; intros s Hne Hs Hl Hm; [contradiction|]. cbn zeta.
  inversion Hl as [|? ? Hp Hl']; subst. assert (Ps : 0 <= fval s) by apply Hs. assert (Pp : 0 <= fval p) by apply Hp.
  cbn [walk]. destruct l as [|q l].
  - split; [cbn; lia|]. cbn [firstn sum power nth map]. split; [lra|].
    destruct (Qlt_le_dec (fval s) (fval p)) as [H|H]; [left|right]; [split; lra|]. split; [reflexivity|lra].
  - destruct (SFltb s p) eqn:E.
    + apply (ltb_ok s p Hs Hp) in E.
      split; [cbn; lia|]. cbn [firstn sum power nth map]. split; [lra|]. left. split; lra.
    + assert (Hle : fval p <= fval s).
      { apply Qnot_lt_le. intros X. apply (ltb_ok s p Hs Hp) in X. congruence. }
      rewrite walk_shift. change (1 + ?x)%nat with (S x).
      assert (Hm1 : 1 * fval s <= power (1 + ulp) (length (p :: q :: l)) * fval s).
      { apply Qmult_le_compat_r; [apply up_ge_1; discriminate|exact Ps]. }
      destruct (sub_near s p Hs Hp Hle) as [G [L U]]; [lra|].
      destruct (IH (f64_sub s p) ltac:(discriminate) G Hl') as (Hi & A & B).
      { apply Qle_trans with (2 := Hm). change (length (p :: q :: l)) with (S (length (q :: l))). cbn [power].
        setoid_replace ((1 + ulp) * power (1 + ulp) (length (q :: l)) * fval s)
          with (power (1 + ulp) (length (q :: l)) * ((1 + ulp) * fval s)) by ring.
        apply mul_le_l; [pose proof (up_ge_1 ulp ulp0 ulp1 (length (q :: l))); lra|]. pose proof ulp0. nra. }
      set (i := walk (f64_sub s p) 0 (q :: l)) in *.
      pose proof ulp0 as U0. pose proof ulp1 as U1.
      pose proof (up_ge_1 ulp ulp0 ulp1 i) as Hu. pose proof (down_le_1 ulp ulp0 ulp1 i) as [Hd1 Hd2].
      set (y := fval (f64_sub s p)) in *.
      assert (G1 : power (1 + ulp) i * y <= power (1 + ulp) (S i) * fval s - fval p).
      { cbn [power]. assert (X : power (1 + ulp) i * y <= power (1 + ulp) i * ((1 + ulp) * (fval s - fval p))).
        { apply mul_le_l; [lra|exact U]. }
        assert (Y : 1 * fval p <= (power (1 + ulp) i * (1 + ulp)) * fval p) by (apply Qmult_le_compat_r; nra). lra. }
      assert (G2 : power (1 - ulp) (S i) * fval s - fval p <= power (1 - ulp) i * y).
      { cbn [power]. assert (X : power (1 - ulp) i * ((1 - ulp) * (fval s - fval p)) <= power (1 - ulp) i * y).
        { apply mul_le_l; [lra|exact L]. }
        assert (Y : (power (1 - ulp) i * (1 - ulp)) * fval p <= 1 * fval p) by (apply Qmult_le_compat_r; nra). lra. }
      split; [cbn [length] in *; lia|]. split.
      * cbn [map firstn sum] in *. lra.
      * destruct B as [[B C]|[B C]]; [left|right].
        -- split; [|exact C].
           change (firstn (S (S i)) (fvals (p :: q :: l))) with (fval p :: firstn (S i) (fvals (q :: l))).
           cbn [sum]. lra.
        -- split; [cbn [length] in *; lia|].
           change (sum (fvals (p :: q :: l))) with (fval p + sum (fvals (q :: l))). lra.
Qed.

(** ** Weights *)

(** A factor of a weight: zero, or within 2^a and 2^b. *)
Definition factor (a b : Z) (x : Q) : Prop := x == 0 \/ p2 a <= x /\ x <= p2 b.
#[global] Instance factor_Proper a b : Proper (Qeq ==> iff) (factor a b).
Proof. intros x y E. unfold factor. now rewrite E. Qed.
Lemma factor_nonneg a b x : factor a b x -> 0 <= x.
Proof. intros [E|[L _]]; [rewrite E; discriminate|]. pose proof (p2_pos a). lra. Qed.
Lemma factor_mul a b c e x y : factor a b x -> factor c e y -> factor (a + c) (b + e) (x * y).
Proof.
  intros [E|[L U]] [E'|[L' U']]; [left; rewrite E; ring|left; rewrite E; ring|left; rewrite E'; ring|right].
  pose proof (p2_pos a) as A. pose proof (p2_pos c) as C. rewrite !p2_plus. split.
  - apply Qle_trans with (x * p2 c); [apply Qmult_le_compat_r; lra|]. apply mul_le_l; lra.
  - apply Qle_trans with (x * p2 e); [apply mul_le_l; lra|]. apply Qmult_le_compat_r; lra.
Qed.
Lemma factor_weaken a b a' b' x : (a' <= a)%Z -> (b <= b')%Z -> factor a b x -> factor a' b' x.
Proof.
  intros H H' [E|[L U]]; [now left|right]. pose proof (p2_le _ _ H). pose proof (p2_le _ _ H'). split; lra.
Qed.
Lemma factor_near a b x y : factor a b x -> near x y -> factor (a - 1) (b + 1) y.
Proof.
  intros F [L U]. pose proof ulp0 as U0. pose proof ulp1 as U1. destruct F as [E|[Fl Fu]].
  - left. rewrite E in L, U. apply Qle_antisym; lra.
  - right. pose proof (p2_succ (a - 1)) as P. replace (a - 1 + 1)%Z with a in P by lia. pose proof (p2_succ b) as P'.
    pose proof (p2_pos (a - 1)) as Q.
    assert (K : ulp * x <= (1 # 2) * x) by (apply Qmult_le_compat_r; [exact U1|lra]). split; lra.
Qed.
Lemma factor_range a b x : factor a b x -> (-1022 <= a)%Z -> (b <= 900)%Z ->
  x <= p2 900 /\ (x == 0 \/ p2 (-1022) <= x).
Proof.
  intros [E|[L U]] H H'.
  - split; [rewrite E; apply Qlt_le_weak, p2_pos|now left].
  - pose proof (p2_le _ _ H). pose proof (p2_le _ _ H'). split; [|right]; lra.
Qed.

Lemma f32_bits_ok b : (b < 0x7F800000 \/ b = 0x80000000)%N ->
  canonical 24 128 (f32_bits b) /\ fval (f32_bits b) == bits_value b.
Proof.
  intros [H| ->]; [|split; [exact I|reflexivity]].
  unfold f32_bits, bits_value. replace (2147483648 <=? b)%N with false by (symmetry; apply N.leb_gt; lia).
  rewrite (N.mod_small b (2 ^ 31)) by (change (2 ^ 31)%N with 2147483648%N; lia).
  change (2 ^ 23)%N with 8388608%N.
  assert (D : b = (8388608 * (b / 8388608) + b mod 8388608)%N) by (apply N.div_mod'; discriminate).
  assert (M : (b mod 8388608 < 8388608)%N) by now apply N.mod_lt.
  assert (Q255 : (b / 8388608 < 255)%N) by (apply N.div_lt_upper_bound; [discriminate|exact H]).
  set (q := (b / 8388608)%N) in *. set (m := (b mod 8388608)%N) in *. clearbody q m.
  rewrite (N.mod_small q 256) by lia.
  destruct (N.eqb_spec q 255) as [E|_]; [lia|]. destruct (N.eqb_spec q 0) as [E|E].
  - destruct m as [|p]; [split; [exact I|reflexivity]|]. split; [|reflexivity]. cbn [canonical].
    pose proof (Zdigits_le (Zpos p) 23 ltac:(lia) ltac:(lia)) as K. cbn [Zdigits2] in K. unfold fexp, emin. lia.
  - destruct (m + 8388608)%N as [|p] eqn:Ep; [lia|]. split; [|reflexivity]. cbn [canonical].
    pose proof (Zdigits_unique (Zpos p) 24 ltac:(lia) ltac:(lia)) as K. cbn [Zdigits2] in K. unfold fexp, emin. lia.
Qed.
Lemma small_factor x : canonical 24 128 x -> 0 <= fval x -> factor (-149) 128 (fval x).
Proof.
  intros C H. pose proof (canonical_max 24 128 x ltac:(lia) C) as M. rewrite Qabs_pos in M by exact H.
  pose proof max32 as M'. destruct x as [s| | |s m e]; try contradiction; [left; reflexivity|]. right. split; [|lra].
  rewrite (finite_positive _ _ _ H) in *. cbn [fval signed].
  destruct (canonical_split _ _ _ _ _ C) as (_ & _ & E & _). change (emin 24 128) with (-149)%Z in E.
  pose proof (p2_le _ _ E) as P. pose proof (p2_pos e).
  apply Qle_trans with (1 := P). rewrite <- (Qmult_1_l (p2 e)) at 1. apply Qmult_le_compat_r; [|lra].
  change 1 with (inject_Z 1). rewrite <- Zle_Qle. lia.
Qed.
Lemma bits_nonneg b : 0 <= bits_value b.
Proof.
  unfold bits_value. destruct (N.eqb _ 0); (apply Qmult_le_0_compat; [|apply Qlt_le_weak, p2_pos]);
    change 0 with (inject_Z 0); rewrite <- Zle_Qle; apply N2Z.is_nonneg.
Qed.
Lemma multiplier_good l k : multiplier_ok l k ->
  good (f64_of_f32 (f32_bits (nth k l 0%N))) /\ fval (f64_of_f32 (f32_bits (nth k l 0%N))) == bits_value (nth k l 0%N) /\
  factor (-149) 128 (bits_value (nth k l 0%N)).
Proof.
  unfold multiplier_ok. set (b := nth k l 0%N). clearbody b. intros H. destruct (f32_bits_ok b H) as [C V].
  destruct (widen _ C) as [C' V']. pose proof (bits_nonneg b) as P.
  assert (E : fval (f64_of_f32 (f32_bits b)) == bits_value b) by now rewrite V', V.
  split; [split; [exact C'|now rewrite E]|]. split; [exact E|].
  rewrite <- V. apply small_factor; [exact C|now rewrite V].
Qed.
Lemma base_good b : (b < 2^32)%N ->
  good (f64_of_N b) /\ fval (f64_of_N b) == inject_Z (Z.of_N b) /\ factor 0 32 (inject_Z (Z.of_N b)).
Proof.
  change (2^32)%N with 4294967296%N. intros H.
  assert (D : (Zdigits2 (Z.of_N b) <= 32)%Z) by (apply Zdigits_le; lia).
  destruct (normalize_exact 53 1024 ltac:(lia) ltac:(lia) (Z.of_N b) 0 false) as [C V]; [lia|discriminate|lia|].
  change (p2 0) with 1 in V. rewrite Qmult_1_r in V. change (binary_normalize _ _ _ _ _) with (f64_of_N b) in C, V.
  assert (P : 0 <= inject_Z (Z.of_N b)) by (change 0 with (inject_Z 0); rewrite <- Zle_Qle; lia).
  split; [split; [exact C|now rewrite V]|]. split; [exact V|]. destruct b as [|p]; [left; reflexivity|right].
  change (p2 0) with (inject_Z 1). change (p2 32) with (inject_Z (2 ^ 32)). rewrite <- !Zle_Qle. lia.
Qed.

Section Weights.
Context (time weather : nat).
Definition slot_ok (s : slotLA) : Prop := (la_base_probability s < 2^32)%N /\
  multiplier_ok (la_time s) time /\ multiplier_ok (la_weather s) weather.

Lemma weight_factor s : slot_ok s -> factor (-298) 288 (weight time weather s).
Proof.
  intros (Hb & Ht & Hw). destruct (base_good _ Hb) as (_ & _ & F0).
  destruct (multiplier_good _ _ Ht) as (_ & _ & F1). destruct (multiplier_good _ _ Hw) as (_ & _ & F2).
  exact (factor_mul _ _ _ _ _ _ (factor_mul _ _ _ _ _ _ F0 F1) F2).
Qed.
Lemma weight_nonneg s : slot_ok s -> 0 <= weight time weather s.
Proof. intros H. exact (factor_nonneg _ _ _ (weight_factor s H)). Qed.
Lemma probability_bounds s : slot_ok s ->
  good (probability time weather s) /\ factor (-300) 290 (fval (probability time weather s)) /\
  power (1 - ulp) 2 * weight time weather s <= fval (probability time weather s) /\
  fval (probability time weather s) <= power (1 + ulp) 2 * weight time weather s.
Proof.
  intros (Hb & Ht & Hw). unfold weight, probability. destruct (base_good _ Hb) as (G0 & E0 & F0).
  destruct (multiplier_good _ _ Ht) as (G1 & E1 & F1). destruct (multiplier_good _ _ Hw) as (G2 & E2 & F2).
  set (b := inject_Z (Z.of_N (la_base_probability s))) in *.
  set (t := bits_value (nth time (la_time s) 0%N)) in *. set (w := bits_value (nth weather (la_weather s) 0%N)) in *.
  set (fb := f64_of_N _) in *. set (ft := f64_of_f32 (f32_bits (nth time _ _))) in *.
  set (fw := f64_of_f32 (f32_bits (nth weather _ _))) in *.
  pose proof (factor_mul _ _ _ _ _ _ F0 F1) as F01.
  destruct (factor_range _ _ _ F01 ltac:(discriminate) ltac:(discriminate)) as [R1 R2]. rewrite <- E0, <- E1 in R1, R2.
  destruct (mul_near fb ft G0 G1 R1 R2) as [G3 N3]. rewrite E0, E1 in N3.
  pose proof (factor_near _ _ _ _ F01 N3) as F3. pose proof (factor_mul _ _ _ _ _ _ F3 F2) as F32.
  destruct (factor_range _ _ _ F32 ltac:(discriminate) ltac:(discriminate)) as [R3 R4]. rewrite <- E2 in R3, R4.
  destruct (mul_near _ fw G3 G2 R3 R4) as [G4 N4]. rewrite E2 in N4.
  split; [exact G4|]. split; [exact (factor_near _ _ _ _ F32 N4)|].
  destruct N3 as [L U], N4 as [L' U']. pose proof (factor_nonneg _ _ _ F2) as W0. pose proof ulp0. pose proof ulp1.
  cbn [power]. split.
  - apply Qle_trans with (2 := L').
    setoid_replace ((1 - ulp) * ((1 - ulp) * 1) * (b * t * w)) with ((1 - ulp) * (((1 - ulp) * (b * t)) * w)) by ring.
    apply mul_le_l; [discriminate|]. apply Qmult_le_compat_r; assumption.
  - apply Qle_trans with (1 := U').
    setoid_replace ((1 + ulp) * ((1 + ulp) * 1) * (b * t * w)) with ((1 + ulp) * (((1 + ulp) * (b * t)) * w)) by ring.
    apply mul_le_l; [discriminate|]. apply Qmult_le_compat_r; assumption.
Qed.

Lemma probabilities_good l : weights_ok time weather l -> Forall good (map (probability time weather) l).
Proof. induction 1 as [|s l H Hl IH]; constructor; [exact (proj1 (probability_bounds s H))|exact IH]. Qed.
Lemma weights_nonneg l : weights_ok time weather l -> Forall (Qle 0) (map (weight time weather) l).
Proof. induction 1 as [|s l H Hl IH]; constructor; [exact (weight_nonneg s H)|exact IH]. Qed.
Lemma probabilities_le l : weights_ok time weather l ->
  Forall (fun y => y <= p2 290) (fvals (map (probability time weather) l)).
Proof.
  induction 1 as [|s l H Hl IH]; constructor; [|exact IH].
  destruct (probability_bounds s H) as (_ & [E|[_ U]] & _); [rewrite E; apply Qlt_le_weak, p2_pos|exact U].
Qed.
Lemma sum_positive l : weights_ok time weather l -> 0 < sum (map (weight time weather) l) ->
  p2 (-298) <= sum (map (weight time weather) l).
Proof.
  induction 1 as [|s l H Hl IH]; cbn [map sum]; intros P; [exfalso; lra|].
  pose proof (sum_nonneg _ (weights_nonneg l Hl)) as S0.
  destruct (weight_factor s H) as [E|[L _]]; [|lra]. rewrite E in P |- *.
  apply Qle_trans with (1 := IH ltac:(lra)). lra.
Qed.
Lemma sums l : weights_ok time weather l ->
  power (1 - ulp) 2 * sum (map (weight time weather) l) <= sum (fvals (map (probability time weather) l)) /\
  sum (fvals (map (probability time weather) l)) <= power (1 + ulp) 2 * sum (map (weight time weather) l).
Proof.
  induction 1 as [|s l H Hl [L U]]; cbn [map sum]; [cbn; split; lra|].
  destruct (probability_bounds s H) as (_ & _ & L' & U').
  set (x := power (1 - ulp) 2) in *. set (y := power (1 + ulp) 2) in *. split; lra.
Qed.
Lemma weights_firstn k l : weights_ok time weather l -> weights_ok time weather (firstn k l).
Proof.
  intros H. apply Forall_forall. intros x Hx. apply (proj1 (Forall_forall _ _) H).
  rewrite <- (firstn_skipn k l). apply in_or_app. now left.
Qed.

Lemma rand_ok rand : float32 rand -> 0 <= value rand -> value rand < 1 ->
  good (f64_of_f32 rand) /\ fval (f64_of_f32 rand) == value rand /\
  (value rand == 0 \/ p2 (-149) <= value rand) /\ value rand <= 16777215 # 16777216.
Proof.
  unfold float32. rewrite finite_canonical, !value_fval. intros C H0 H1. destruct (widen _ C) as [C' V].
  split; [split; [exact C'|now rewrite V]|]. split; [now rewrite V|]. split.
  - destruct (small_factor _ C H0) as [E|[L _]]; auto.
  - destruct rand as [s| | |s m e]; try contradiction; [discriminate|]. rewrite (finite_positive _ _ _ H0) in *.
    cbn [fval signed] in *. destruct (canonical_split _ _ _ _ _ C) as (_ & D & E & _).
    pose proof (digits_bounds m) as B.
    assert (M : (2 ^ Zpos (digits2_pos m) <= 2 ^ 24)%Z) by (apply Z.pow_le_mono_r; lia).
    destruct (Z.le_gt_cases e (-24)) as [He|He].
    + pose proof (p2_le _ _ He) as P. apply Qle_trans with (inject_Z (2 ^ 24 - 1) * p2 (-24)); [|discriminate].
      apply Qle_trans with (inject_Z (2 ^ 24 - 1) * p2 e); [|apply mul_le_l; [discriminate|exact P]].
      apply Qmult_le_compat_r; [|apply Qlt_le_weak, p2_pos]. rewrite <- Zle_Qle. lia.
    + destruct (canonical_split _ _ _ _ _ C) as ([D'|D'] & _); [|change (emin 24 128) with (-149)%Z in D'; lia].
      rewrite D' in B. exfalso. pose proof (p2_le (-23) e ltac:(lia)) as P.
      assert (Q : inject_Z (2 ^ 23) * p2 (-23) <= inject_Z (Zpos m) * p2 e); [|change (inject_Z (2 ^ 23) * p2 (-23)) with (8388608 # 8388608) in Q; lra].
      apply Qle_trans with (inject_Z (2 ^ 23) * p2 e); [apply mul_le_l; [discriminate|exact P]|].
      apply Qmult_le_compat_r; [|apply Qlt_le_weak, p2_pos]. rewrite <- Zle_Qle. lia.
Qed.

Lemma rand_margin n rand : (Z.of_nat n <= 2 ^ 20)%Z -> 0 <= rand -> rand <= 16777215 # 16777216 ->
  power (1 + ulp) (2 * n) * rand < 1.
Proof.
  intros Hn H0 H1. pose proof (small_count (2 * n) ltac:(lia)) as Hc.
  pose proof (margin ulp ulp0 ulp1 (2 * n) ltac:(lra)) as M.
  set (c := inject_Z (Z.of_nat (2 * n)) * ulp) in *.
  pose proof (up_ge_1 ulp ulp0 ulp1 (2 * n)) as P. set (p := power (1 + ulp) (2 * n)) in *.
  apply Qlt_le_trans with (2 := M). apply mul_lt_l; lra.
Qed.

(** The slot calc_slot returns, against the exact weights. *)
Lemma calc_slot_bounds a rand : weights_ok time weather (al_slots a) ->
  let w := map (weight time weather) (al_slots a) in
  let n := length (al_slots a) in
  let r := value rand in
  (Z.of_nat n <= 2 ^ 20)%Z -> 0 < sum w -> float32 rand -> 0 <= r -> r < 1 ->
  exists i s, calc_slot Numba a rand time weather = Ok s /\ nth_error (al_slots a) i = Some s /\
    0 < weight time weather s /\
    power (1 - ulp) 2 * sum (firstn i w) <= power (1 + ulp) (2 * n + 2) * (r * sum w) /\
    power (1 - ulp) (2 * n + 2) * (r * sum w) < power (1 + ulp) 2 * sum (firstn (S i) w).
Proof.
  intros Hok w n r Hn20 Hw Hf Hr Hr1. unfold calc_slot. cbv zeta.
  assert (Hne : al_slots a <> []). { intros E. unfold w in Hw. rewrite E in Hw. cbn in Hw. lra. }
  set (fp := map (probability time weather) (al_slots a)).
  pose proof (probabilities_good _ Hok) as Hp. fold fp in Hp.
  pose proof (goods_nonneg _ Hp) as Hp0. pose proof (sum_nonneg _ Hp0) as Sp.
  assert (Hn : length fp = n) by (unfold fp; apply map_length).
  assert (Hpne : fp <> []) by (unfold fp; destruct (al_slots a); [contradiction|discriminate]).
  set (p := fvals fp) in *.
  assert (Hbig : sum p <= p2 310).
  { pose proof (sum_le _ _ (probabilities_le _ Hok)) as K. fold fp p in K. apply Qle_trans with (1 := K).
    unfold p. rewrite map_length, Hn. change 310%Z with (20 + 290)%Z. rewrite p2_plus.
    apply Qmult_le_compat_r; [|apply Qlt_le_weak, p2_pos]. rewrite p2_Z by lia. rewrite <- Zle_Qle. exact Hn20. }
  assert (H310 : 4 * p2 310 <= p2 900).
  { setoid_replace (4 * p2 310) with (p2 312); [apply p2_le; lia|]. change 312%Z with (2 + 310)%Z. rewrite p2_plus. reflexivity. }
  pose proof (up_le_2 n ltac:(lia)) as U2. pose proof (up_ge_1 ulp ulp0 ulp1 n) as U1.
  pose proof (down_ge_half n ltac:(lia)) as D2.
  assert (X2 : power (1 + ulp) n * sum p <= 2 * p2 310).
  { apply Qle_trans with (2 * sum p); [apply Qmult_le_compat_r; assumption|]. apply mul_le_l; [discriminate|exact Hbig]. }
  pose proof (p2_pos 310) as P310.
  destruct (total_bounds fp Hp) as (GT & TL & TU).
  { rewrite Hn. fold p. lra. }
  rewrite Hn in TL, TU. fold p in TL, TU.
  destruct (sums _ Hok) as [SL SU]. fold fp p w in SL, SU.
  pose proof (down_ge_half 2 ltac:(lia)) as D22.
  pose proof (sum_positive _ Hok Hw) as Wmin. fold w in Wmin.
  assert (Spp : p2 (-299) <= sum p).
  { apply Qle_trans with (2 := SL). pose proof (p2_succ (-299)) as K. change (-299 + 1)%Z with (-298)%Z in K.
    apply Qle_trans with ((1 # 2) * sum w); [lra|]. apply Qmult_le_compat_r; [exact D22|lra]. }
  pose proof (p2_pos (-299)) as P299.
  assert (Tmin : p2 (-300) <= fval (total fp)).
  { apply Qle_trans with (2 := TL). pose proof (p2_succ (-300)) as K. change (-300 + 1)%Z with (-299)%Z in K.
    apply Qle_trans with ((1 # 2) * sum p); [lra|]. apply Qmult_le_compat_r; [exact D2|exact Sp]. }
  destruct (rand_ok rand Hf Hr Hr1) as (GR & ER & RF & Rmax). fold r in ER, RF, Rmax.
  assert (T0 : 0 <= fval (total fp)) by apply GT.
  assert (RT : r * fval (total fp) <= 2 * p2 310).
  { apply Qle_trans with (1 * fval (total fp)); [apply Qmult_le_compat_r; lra|]. lra. }
  destruct (mul_near (f64_of_f32 rand) (total fp) GR GT) as [GS [L U]].
  { rewrite ER. lra. }
  { rewrite ER. destruct RF as [RF|RF]; [left; rewrite RF; ring|right].
    apply Qle_trans with (p2 (-149) * p2 (-300)); [rewrite <- p2_plus; apply p2_le; lia|].
    apply Qle_trans with (r * p2 (-300)); [apply Qmult_le_compat_r; [exact RF|apply Qlt_le_weak, p2_pos]|].
    apply mul_le_l; assumption. }
  rewrite ER in L, U. set (s0 := f64_mul (f64_of_f32 rand) (total fp)) in *.
  assert (LS : power (1 - ulp) (S n) * (r * sum p) <= fval s0).
  { apply Qle_trans with (2 := L). cbn [power].
    setoid_replace ((1 - ulp) * power (1 - ulp) n * (r * sum p)) with ((1 - ulp) * (r * (power (1 - ulp) n * sum p))) by ring.
    apply mul_le_l; [discriminate|]. apply mul_le_l; [exact Hr|exact TL]. }
  assert (US : fval s0 <= power (1 + ulp) (S n) * (r * sum p)).
  { apply Qle_trans with (1 := U). cbn [power].
    setoid_replace ((1 + ulp) * power (1 + ulp) n * (r * sum p)) with ((1 + ulp) * (r * (power (1 + ulp) n * sum p))) by ring.
    apply mul_le_l; [discriminate|]. apply mul_le_l; [exact Hr|exact TU]. }
  assert (Hrp : 0 <= r * sum p) by (apply Qmult_le_0_compat; assumption).
  assert (Hrw : 0 <= r * sum w) by (apply Qmult_le_0_compat; lra).
  assert (Hrps : r * sum p <= p2 310).
  { apply Qle_trans with (1 * sum p); [apply Qmult_le_compat_r; lra|lra]. }
  destruct (walk_bounds fp s0 Hpne GS Hp) as (Hi & A & B).
  { rewrite Hn. apply Qle_trans with (power (1 + ulp) (n + S n) * (r * sum p)).
    - rewrite power_add, <- Qmult_assoc. apply mul_le_l; [lra|exact US].
    - apply Qle_trans with (2 * (r * sum p)); [|lra]. apply Qmult_le_compat_r; [|exact Hrp]. apply up_le_2. lia. }
  fold p in A, B. set (i := walk s0 0 fp) in *. rewrite Hn in Hi.
  assert (A' : power (1 + ulp) i * fval s0 <= power (1 + ulp) (2 * n) * (r * sum p)).
  { apply Qle_trans with (power (1 + ulp) (i + S n) * (r * sum p)).
    - rewrite power_add, <- Qmult_assoc. apply mul_le_l; [|exact US]. pose proof (up_ge_1 ulp ulp0 ulp1 i). lra.
    - apply Qmult_le_compat_r; [|exact Hrp]. apply (up_mono ulp ulp0 ulp1). lia. }
  destruct B as [[B C]|[B C]].
  2:{ exfalso. assert (X : power (1 + ulp) (2 * n) * (r * sum p) < 1 * sum p).
      { rewrite Qmult_assoc. apply Qmult_lt_compat_r; [lra|]. now apply rand_margin. }
      set (z := power (1 + ulp) (2 * n)) in *. lra. }
  destruct (nth_error (al_slots a) i) as [s|] eqn:E; [|apply nth_error_None in E; fold n in E; lia].
  exists i, s. split; [reflexivity|]. split; [exact E|].
  assert (Hs : In s (al_slots a)) by (eapply nth_error_In; exact E).
  pose proof (proj1 (Forall_forall _ _) Hok s Hs) as M.
  destruct (probability_bounds s M) as (_ & _ & _ & PU). pose proof (weight_nonneg s M) as W0.
  split; [|split].
  - assert (X : nth i p 0 = fval (probability time weather s)).
    { apply nth_error_nth with (d := 0). unfold p, fp. now rewrite !nth_error_map, E. }
    rewrite X in C. destruct (Qlt_le_dec 0 (weight time weather s)) as [Y|Y]; [exact Y|exfalso].
    assert (Z : weight time weather s == 0) by (apply Qle_antisym; assumption). rewrite Z in PU. lra.
  - destruct (sums _ (weights_firstn i _ Hok)) as [X _]. rewrite <- !firstn_map in X. fold fp p w in X.
    apply Qle_trans with (1 := X). apply Qle_trans with (1 := A). apply Qle_trans with (1 := A').
    rewrite power_add, <- Qmult_assoc. apply mul_le_l; [pose proof (up_ge_1 ulp ulp0 ulp1 (2 * n)); lra|].
    setoid_replace (power (1 + ulp) 2 * (r * sum w)) with (r * (power (1 + ulp) 2 * sum w)) by ring.
    apply mul_le_l; assumption.
  - destruct (sums _ (weights_firstn (S i) _ Hok)) as [_ X]. rewrite <- !firstn_map in X. fold fp p w in X.
    apply Qlt_le_trans with (2 := X). apply Qle_lt_trans with (2 := B).
    apply Qle_trans with (power (1 - ulp) (i + S n) * (r * sum p)).
    2:{ rewrite power_add, <- Qmult_assoc. apply mul_le_l; [apply (down_le_1 ulp ulp0 ulp1)|exact LS]. }
    apply Qle_trans with (power (1 - ulp) (2 * n) * (r * sum p)).
    2:{ apply Qmult_le_compat_r; [|exact Hrp]. apply (down_mono ulp ulp0 ulp1). lia. }
    rewrite power_add, <- Qmult_assoc. apply mul_le_l; [apply (down_le_1 ulp ulp0 ulp1)|].
    setoid_replace (power (1 - ulp) 2 * (r * sum w)) with (r * (power (1 - ulp) 2 * sum w)) by ring.
    apply mul_le_l; assumption.
Qed.
End Weights.

(** ** Intervals are disjoint *)
Lemma sum_firstn_mono l : Forall (Qle 0) l -> forall i j, (i <= j)%nat -> sum (firstn i l) <= sum (firstn j l).
Proof.
  induction 1 as [|x l Hx Hl IH]; intros i j H; [rewrite !firstn_nil; apply Qle_refl|].
  destruct i as [|i]; [|destruct j as [|j]; [lia|]].
  - cbn [firstn sum]. destruct j as [|j]; [apply Qle_refl|]. cbn [firstn sum].
    specialize (IH 0%nat j ltac:(lia)). cbn [firstn sum] in IH. lra.
  - cbn [firstn sum]. specialize (IH i j ltac:(lia)). lra.
Qed.
Lemma sum_firstn_all l i : Forall (Qle 0) l -> sum (firstn i l) <= sum l.
Proof.
  intros H. apply Qle_trans with (sum (firstn (Nat.max i (length l)) l)).
  - apply sum_firstn_mono; [exact H|lia].
  - rewrite firstn_all2 by lia. apply Qle_refl.
Qed.
Lemma calc_slot_interval a time weather rand i s : weights_ok time weather (al_slots a) ->
  let w := map (weight time weather) (al_slots a) in
  let n := length (al_slots a) in
  let r := value rand in
  (Z.of_nat n <= 2 ^ 20)%Z -> float32 rand -> 0 <= r -> r < 1 -> nth_error (al_slots a) i = Some s ->
  power (1 + ulp) 2 * sum (firstn i w) <= power (1 - ulp) (2 * n + 2) * (r * sum w) ->
  power (1 + ulp) (2 * n + 2) * (r * sum w) < power (1 - ulp) 2 * sum (firstn (S i) w) ->
  calc_slot Numba a rand time weather = Ok s.
Proof.
  intros Hok w n r Hn Hf H0 H1 Hi L U. pose proof (weights_nonneg _ _ _ Hok) as Hw. fold w in Hw.
  pose proof (down_pos ulp ulp0 ulp1 2) as D2.
  assert (Hs : 0 < sum w).
  { pose proof (sum_firstn_all w (S i) Hw) as K. pose proof (sum_nonneg w Hw) as S0.
    assert (X : 0 <= power (1 + ulp) (2 * n + 2) * (r * sum w)).
    { apply Qmult_le_0_compat; [pose proof (up_ge_1 ulp ulp0 ulp1 (2 * n + 2)); lra|]. now apply Qmult_le_0_compat. }
    destruct (Qlt_le_dec 0 (sum w)) as [G|G]; [exact G|exfalso].
    assert (Y : power (1 - ulp) 2 * sum (firstn (S i) w) <= power (1 - ulp) 2 * 0) by (apply mul_le_l; lra).
    set (z := power (1 - ulp) 2 * sum (firstn (S i) w)) in *. lra. }
  destruct (calc_slot_bounds time weather a rand Hok Hn Hs Hf H0 H1) as (j & t & E & Hj & _ & L' & U').
  fold w n r in L', U'. destruct (Nat.lt_trichotomy i j) as [K|[K|K]].
  - exfalso. pose proof (sum_firstn_mono w Hw (S i) j K) as M.
    assert (Y : power (1 - ulp) 2 * sum (firstn (S i) w) <= power (1 - ulp) 2 * sum (firstn j w)) by (apply mul_le_l; lra).
    apply (Qlt_irrefl (power (1 - ulp) 2 * sum (firstn j w))).
    apply Qle_lt_trans with (1 := L'). apply Qlt_le_trans with (1 := U). exact Y.
  - rewrite K in Hi. congruence.
  - exfalso. pose proof (sum_firstn_mono w Hw (S j) i K) as M.
    assert (Y : power (1 + ulp) 2 * sum (firstn (S j) w) <= power (1 + ulp) 2 * sum (firstn i w)).
    { apply mul_le_l; [discriminate|exact M]. }
    apply (Qlt_irrefl (power (1 + ulp) 2 * sum (firstn i w))).
    apply Qle_lt_trans with (1 := L). apply Qlt_le_trans with (1 := U'). exact Y.
Qed.

(** ** No weight at all *)
Definition void (x : spec_float) : Prop := match x with S754_zero _ | S754_nan => True | _ => False end.
Definition is_zero (x : spec_float) : Prop := match x with S754_zero _ => True | _ => False end.
Lemma walk_zero : forall l s i, l <> [] -> void s -> Forall is_zero l -> walk s i l = (i + (length l - 1))%nat.
Proof.
  induction l as [|p l IH]; intros s i Hne Hs Hl; [contradiction|]. inversion Hl as [|? ? Hp Hl']; subst.
  cbn [walk]. destruct l as [|q l]; [cbn; lia|].
  assert (E : SFltb s p = false) by (destruct s, p; try contradiction; reflexivity). rewrite E.
  rewrite IH; [cbn [length]; lia|discriminate| |exact Hl'].
  destruct s as [s1| | |], p as [s2| | |]; try contradiction; try exact I. cbn. now destruct (eqb s1 (negb s2)).
Qed.
Lemma total_zero : forall l a, is_zero a -> Forall is_zero l -> is_zero (fold_left f64_add l a).
Proof.
  induction l as [|p l IH]; intros a Ha Hl; [exact Ha|]. inversion Hl as [|? ? Hp Hl']; subst. apply IH; [|exact Hl'].
  destruct a as [s1| | |], p as [s2| | |]; try contradiction. cbn. now destruct (eqb s1 s2).
Qed.
Lemma value_zero x : good x -> fval x == 0 -> is_zero x.
Proof.
  intros [C P] E. destruct x as [s| | |s m e]; try contradiction; [exact I|].
  rewrite (finite_positive _ _ _ P) in *. cbn [fval signed] in E. pose proof (pos_val m e). exfalso. lra.
Qed.
Lemma sum_zero l : Forall (Qle 0) l -> sum l == 0 -> Forall (fun x => x == 0) l.
Proof.
  induction 1 as [|x l Hx Hl IH]; cbn [sum]; intros H; constructor.
  - pose proof (sum_nonneg l Hl). lra.
  - apply IH. pose proof (sum_nonneg l Hl). lra.
Qed.
Lemma calc_slot_zero a time weather rand before s : al_slots a = before ++ [s] ->
  weights_ok time weather (al_slots a) -> sum (map (weight time weather) (al_slots a)) == 0 ->
  calc_slot Numba a rand time weather = Ok s.
Proof.
  intros Ea Hok Hz. unfold calc_slot. cbv zeta.
  assert (Z : Forall is_zero (map (probability time weather) (al_slots a))).
  { pose proof (sum_zero _ (weights_nonneg _ _ _ Hok) Hz) as W. clear Ea Hz.
    induction Hok as [|x l Hx Hl IH]; constructor.
    - inversion W as [|? ? W1 W2]; subst. destruct (probability_bounds time weather x Hx) as (G & _ & _ & U).
      apply value_zero; [exact G|]. destruct G as [_ G]. rewrite W1 in U. apply Qle_antisym; [|exact G]. lra.
    - apply IH. now inversion W. }
  clear Hz. set (p := map (probability time weather) (al_slots a)) in *. rewrite walk_zero.
  - unfold p. rewrite map_length, Ea, app_length. cbn [length].
    rewrite nth_error_app2 by lia. replace (0 + (length before + 1 - 1) - length before)%nat with 0%nat by lia. reflexivity.
  - unfold p. rewrite Ea, map_app. cbn [map]. now destruct (map _ before).
  - pose proof (total_zero p (S754_zero false) I Z) as T. fold (total p) in T.
    destruct (total p) as [s1| | |]; try contradiction.
    destruct (f64_of_f32 rand) as [s2| | |s2 m e]; exact I.
  - exact Z.
Qed.
