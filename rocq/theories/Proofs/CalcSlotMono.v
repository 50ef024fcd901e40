(** Rounding is monotone, and so is the choice of a slot. *)
From Coq Require Import NArith ZArith QArith Qabs Qpower List Bool Lia Lqa Arith SpecFloat Morphisms.
From Verif Require Import Base.Word Model.Float Model.EncounterLA Spec.FloatSpec Spec.EncounterLASpec
  Proofs.FloatProofs Proofs.XorshiftFloat Proofs.CalcSlotProofs.
Import ListNotations.
Open Scope Q_scope.

(** ** Nearest values *)
Lemma nearest_multiple g n k x : 0 < g -> Qabs (inject_Z n * g - x) <= (1 # 2) * g ->
  Qabs (inject_Z n * g - x) <= Qabs (inject_Z k * g - x).
Proof.
  intros Hg H. destruct (Z.lt_trichotomy n k) as [L|[->|L]].
  - assert (K : (inject_Z n + 1) * g <= inject_Z k * g).
    { apply Qmult_le_compat_r; [|lra]. change 1 with (inject_Z 1). rewrite <- inject_Z_plus, <- Zle_Qle. lia. }
    apply Qle_trans with (1 := H). apply Qle_trans with (2 := Qle_Qabs _).
    apply Qabs_Qle_condition in H. lra.
  - apply Qle_refl.
  - assert (K : (inject_Z k + 1) * g <= inject_Z n * g).
    { apply Qmult_le_compat_r; [|lra]. change 1 with (inject_Z 1). rewrite <- inject_Z_plus, <- Zle_Qle. lia. }
    apply Qle_trans with (1 := H). rewrite <- Qabs_opp. apply Qle_trans with (2 := Qle_Qabs _).
    apply Qabs_Qle_condition in H. lra.
Qed.
Lemma multiple_coarser n e f : (f <= e)%Z -> exists k, inject_Z n * p2 e == inject_Z k * p2 f.
Proof.
  intros H. exists (n * 2 ^ (e - f))%Z. rewrite inject_Z_mult, <- (p2_Z (e - f)) by lia.
  replace e with (e - f + f)%Z at 1 by lia. rewrite p2_plus. ring.
Qed.

Section Format.
Context (prec emax : Z) (Hprec : (1 < prec)%Z) (Hemax : (prec < emax)%Z).
Set Default Proof Using "Hprec Hemax".

Lemma rounded_nearest r x z : rounded prec emax r x -> canonical prec emax z ->
  Qabs (fval r - x) <= Qabs (fval z - x).
Proof.
  intros [_ [[E V]|(d & n & L & U & V & H)]] C.
  { rewrite E, V. setoid_replace (0 - 0) with 0 by ring. change (Qabs 0) with 0. apply Qabs_nonneg. }
  set (g := p2 (fexp prec emax d)) in *. assert (Hg : 0 < g) by apply p2_pos.
  assert (M : forall k, Qabs (fval r - x) <= Qabs (inject_Z k * g - x)).
  { intros k. rewrite V in *. now apply nearest_multiple. }
  assert (K : (exists k, fval z == inject_Z k * g) \/
              Qabs (fval z) < p2 (d - 1) /\ exists k, p2 (d - 1) == inject_Z k * g).
  { destruct (canonical_grid prec emax z C) as [Z0|(d' & n' & L' & U' & V')].
    - left. exists 0%Z. rewrite Z0. change (inject_Z 0) with 0. ring.
    - destruct (Z.le_gt_cases d d') as [D|D].
      + left. destruct (multiple_coarser n' (fexp prec emax d') (fexp prec emax d)) as [k Ek]; [unfold fexp; lia|].
        exists k. rewrite V'. exact Ek.
      + destruct (Z.le_gt_cases (fexp prec emax d) (d - 1)) as [F|F].
        * right. split; [apply Qlt_le_trans with (1 := U'); apply p2_le; lia|].
          destruct (multiple_coarser 1 (d - 1) _ F) as [k Ek]. exists k. fold g in Ek. rewrite <- Ek.
          change (inject_Z 1) with 1. ring.
        * left. destruct (multiple_coarser n' (fexp prec emax d') (fexp prec emax d)) as [k Ek]; [unfold fexp in *; lia|].
          exists k. rewrite V'. exact Ek. }
  destruct K as [[k E]|[S [k E]]]; [rewrite E; apply M|].
  pose proof (p2_pos (d - 1)) as P. apply Qabs_Qlt_condition in S.
  destruct (Qlt_le_dec x 0) as [N|N].
  - rewrite (Qabs_neg x) in L by lra. apply Qle_trans with (1 := M (- k)%Z).
    rewrite inject_Z_opp. setoid_replace (- inject_Z k * g - x) with (- p2 (d - 1) - x) by (rewrite E; ring).
    rewrite !Qabs_pos by lra. lra.
  - rewrite (Qabs_pos x) in L by lra. apply Qle_trans with (1 := M k). rewrite <- E.
    rewrite !Qabs_neg by lra. lra.
Qed.
Lemma rounded_lt r x r' x' : rounded prec emax r x -> rounded prec emax r' x' -> x < x' -> fval r <= fval r'.
Proof.
  intros R R' H. apply Qnot_lt_le. intros G.
  pose proof (rounded_nearest r x r' R (proj1 R')) as A. pose proof (rounded_nearest r' x' r R' (proj1 R)) as B.
  assert (A' : fval r + fval r' <= 2 * x).
  { apply Qabs_Qle_condition in A. destruct (Qlt_le_dec (fval r' - x) 0) as [N|N].
    - rewrite Qabs_neg in A by lra. lra.
    - rewrite Qabs_pos in A by lra. lra. }
  assert (B' : 2 * x' <= fval r + fval r').
  { apply Qabs_Qle_condition in B. destruct (Qlt_le_dec (fval r - x') 0) as [N|N].
    - rewrite Qabs_neg in B by lra. lra.
    - rewrite Qabs_pos in B by lra. lra. }
  lra.
Qed.
Lemma rounded_nonneg r x : rounded prec emax r x -> 0 <= x -> 0 <= fval r.
Proof.
  intros R H. apply Qnot_lt_le. intros G.
  pose proof (rounded_nearest r x (S754_zero false) R I) as A. cbn [fval] in A.
  rewrite !Qabs_neg in A by lra. lra.
Qed.
Lemma rounded_zero r x : rounded prec emax r x -> x == 0 -> fval r == 0.
Proof.
  intros R E. pose proof (rounded_nearest r x (S754_zero false) R I) as A. cbn [fval] in A. rewrite E in A.
  change (Qabs (0 - 0)) with 0 in A. apply Qabs_Qle_condition in A. lra.
Qed.
End Format.
Unset Default Proof Using.

(** ** Equal values *)
Lemma good_eq x y : good x -> good y -> fval x == fval y -> x = y \/ (fval x == 0 /\ is_zero x /\ is_zero y).
Proof.
  intros [Cx Px] [Cy Py] E.
  destruct x as [sx| | |sx mx ex]; [|contradiction|contradiction|];
  (destruct y as [sy| | |sy my ey]; [|contradiction|contradiction|]).
  - right. split; [reflexivity|]. now split.
  - exfalso. rewrite (finite_positive _ _ _ Py) in E. cbn [fval signed] in E. pose proof (pos_val my ey). lra.
  - exfalso. rewrite (finite_positive _ _ _ Px) in E. cbn [fval signed] in E. pose proof (pos_val mx ex). lra.
  - rewrite (finite_positive _ _ _ Px), (finite_positive _ _ _ Py) in *. left. cbn [fval signed] in E.
    destruct (Z.lt_trichotomy ex ey) as [L|[->|L]].
    + pose proof (exponent_order _ _ _ _ Cx Cy L). exfalso. lra.
    + assert (mx = my) as ->; [|reflexivity].
      assert (K : inject_Z (Zpos mx) == inject_Z (Zpos my)).
      { apply Qmult_inj_r with (p2 ey); [|exact E]. pose proof (p2_pos ey). intros Z. lra. }
      unfold inject_Z, Qeq in K. cbn in K. lia.
    + pose proof (exponent_order _ _ _ _ Cy Cx L). exfalso. lra.
Qed.
Lemma zero_finite s m e : ~ fval (S754_finite s m e) == 0.
Proof. cbn [fval]. pose proof (pos_val m e). destruct s; cbn [signed]; lra. Qed.

(** ** The operations *)
Lemma mul_mono x x' t : good x -> good x' -> good t -> fval x <= fval x' -> fval x' <= 1 ->
  good (f64_mul x t) /\ good (f64_mul x' t) /\ fval (f64_mul x t) <= fval (f64_mul x' t).
Proof.
  intros [Cx Px] [Cx' Px'] [Ct Pt] H H1.
  assert (M : fval t <= maxf 53 1024).
  { pose proof (canonical_max 53 1024 t ltac:(lia) Ct) as K. now rewrite Qabs_pos in K. }
  assert (R : forall y, canonical 53 1024 y -> 0 <= fval y -> fval y <= 1 -> rounded 53 1024 (f64_mul y t) (fval y * fval t)).
  { intros y Cy Py Ly. apply mul_ok; [lia|lia|exact Cy|exact Ct|]. rewrite Qabs_pos by now apply Qmult_le_0_compat.
    apply Qle_trans with (1 * fval t); [apply Qmult_le_compat_r; assumption|lra]. }
  pose proof (R x Cx Px ltac:(lra)) as Rx. pose proof (R x' Cx' Px' H1) as Rx'.
  assert (G : forall y, rounded 53 1024 (f64_mul y t) (fval y * fval t) -> 0 <= fval y -> good (f64_mul y t)).
  { intros y Ry Py. split; [apply Ry|]. apply (rounded_nonneg 53 1024 ltac:(lia) ltac:(lia) _ _ Ry). now apply Qmult_le_0_compat. }
  split; [now apply G|]. split; [now apply G|].
  destruct (Qlt_le_dec (fval x) (fval x')) as [L|L].
  - destruct (Qlt_le_dec 0 (fval t)) as [T|T].
    + apply (rounded_lt 53 1024 ltac:(lia) ltac:(lia) _ _ _ _ Rx Rx'). now apply Qmult_lt_compat_r.
    + assert (Z : fval t == 0) by lra.
      rewrite (rounded_zero 53 1024 ltac:(lia) ltac:(lia) _ _ Rx) by (rewrite Z; ring).
      exact (proj2 (G x' Rx' Px')).
  - assert (E : fval x == fval x') by lra. destruct (good_eq x x' (conj Cx Px) (conj Cx' Px') E) as [->|[Z _]]; [apply Qle_refl|].
    rewrite (rounded_zero 53 1024 ltac:(lia) ltac:(lia) _ _ Rx) by (rewrite Z; ring).
    exact (proj2 (G x' Rx' Px')).
Qed.
Lemma sub_mono x x' p : good x -> good x' -> good p -> fval p <= fval x -> fval x <= fval x' ->
  good (f64_sub x p) /\ good (f64_sub x' p) /\ fval (f64_sub x p) <= fval (f64_sub x' p).
Proof.
  intros [Cx Px] [Cx' Px'] [Cp Pp] H H1.
  assert (R : forall y, canonical 53 1024 y -> fval p <= fval y -> rounded 53 1024 (f64_sub y p) (fval y - fval p)).
  { intros y Cy Py. apply sub_ok; [lia|lia|exact Cy|exact Cp|]. rewrite Qabs_pos by lra.
    pose proof (canonical_max 53 1024 y ltac:(lia) Cy) as K. rewrite Qabs_pos in K by lra. lra. }
  pose proof (R x Cx H) as Rx. pose proof (R x' Cx' ltac:(lra)) as Rx'.
  assert (G : forall y, rounded 53 1024 (f64_sub y p) (fval y - fval p) -> fval p <= fval y -> good (f64_sub y p)).
  { intros y Ry Py. split; [apply Ry|]. apply (rounded_nonneg 53 1024 ltac:(lia) ltac:(lia) _ _ Ry). lra. }
  split; [now apply G|]. split; [apply G; [exact Rx'|lra]|].
  destruct (Qlt_le_dec (fval x) (fval x')) as [L|L].
  - apply (rounded_lt 53 1024 ltac:(lia) ltac:(lia) _ _ _ _ Rx Rx'). lra.
  - assert (E : fval x == fval x') by lra. destruct (good_eq x x' (conj Cx Px) (conj Cx' Px') E) as [->|[Z _]]; [apply Qle_refl|].
    rewrite (rounded_zero 53 1024 ltac:(lia) ltac:(lia) _ _ Rx) by lra.
    apply (G x' Rx'). lra.
Qed.

(** ** The walk *)
Lemma walk_mono : forall l s s', good s -> good s' -> Forall good l -> fval s <= fval s' -> (walk s 0 l <= walk s' 0 l)%nat.
Proof.
  induction l as [|p l IH]; intros s s' Hs Hs' Hl H; cbn [walk]; [lia|]. destruct l as [|q l]; [lia|].
  inversion Hl as [|? ? Hp Hl']; subst.
  destruct (SFltb s p) eqn:E; [lia|]. destruct (SFltb s' p) eqn:E'.
  - exfalso. apply (ltb_ok s' p Hs' Hp) in E'.
    assert (X : SFltb s p = true) by (apply (ltb_ok s p Hs Hp); lra). congruence.
  - assert (Hle : fval p <= fval s).
    { apply Qnot_lt_le. intros X. apply (ltb_ok s p Hs Hp) in X. congruence. }
    rewrite (walk_shift (q :: l) _ 1), (walk_shift (q :: l) (f64_sub s' p) 1).
    destruct (sub_mono s s' p Hs Hs' Hp Hle H) as (G & G' & L).
    specialize (IH _ _ G G' Hl' L). lia.
Qed.
Lemma walk_in : forall l s, l <> [] -> (walk s 0 l < length l)%nat.
Proof.
  induction l as [|p l IH]; intros s H; [contradiction|]. cbn [walk]. destruct l as [|q l]; [cbn; lia|].
  destruct (SFltb s p); [cbn; lia|]. rewrite walk_shift. specialize (IH (f64_sub s p) ltac:(discriminate)). cbn [length] in *. lia.
Qed.

Lemma total_good time weather l : weights_ok time weather l -> (Z.of_nat (length l) <= 2 ^ 20)%Z ->
  good (total (map (probability time weather) l)).
Proof.
  intros Hok Hn20. set (fp := map (probability time weather) l).
  pose proof (probabilities_good _ _ _ Hok) as Hp. fold fp in Hp.
  assert (Hn : length fp = length l) by (unfold fp; apply map_length).
  pose proof (sum_nonneg _ (goods_nonneg _ Hp)) as Sp.
  destruct (total_bounds fp Hp) as (GT & _ & _); [|exact GT].
  assert (Hbig : sum (map fval fp) <= p2 310).
  { pose proof (sum_le _ _ (probabilities_le _ _ _ Hok)) as K. fold fp in K. apply Qle_trans with (1 := K).
    rewrite map_length, Hn. change 310%Z with (20 + 290)%Z. rewrite p2_plus.
    apply Qmult_le_compat_r; [|apply Qlt_le_weak, p2_pos]. rewrite p2_Z by lia. rewrite <- Zle_Qle. exact Hn20. }
  rewrite Hn. apply Qle_trans with (2 * sum (map fval fp)).
  - apply Qmult_le_compat_r; [apply up_le_2; lia|exact Sp].
  - apply Qle_trans with (2 * p2 310); [apply mul_le_l; [discriminate|exact Hbig]|].
    setoid_replace (2 * p2 310) with (p2 311); [apply p2_le; lia|]. change 311%Z with (310 + 1)%Z. now rewrite p2_succ.
Qed.

Lemma slot_monotone a time weather : al_slots a <> [] -> weights_ok time weather (al_slots a) ->
  (Z.of_nat (length (al_slots a)) <= 2 ^ 20)%Z ->
  exists chosen : spec_float -> nat,
    (forall rand, exists s, calc_slot Numba a rand time weather = Ok s /\ nth_error (al_slots a) (chosen rand) = Some s) /\
    (forall rand rand', float32 rand -> float32 rand' -> 0 <= value rand -> value rand <= value rand' -> value rand' < 1 ->
       (chosen rand <= chosen rand')%nat).
Proof.
  intros Hne Hok Hn. set (fp := map (probability time weather) (al_slots a)).
  exists (fun rand => walk (f64_mul (f64_of_f32 rand) (total fp)) 0 fp). split.
  - intros rand. unfold calc_slot. cbv zeta. fold fp.
    set (i := walk _ 0 fp).
    assert (Hi : (i < length (al_slots a))%nat).
    { unfold i. replace (length (al_slots a)) with (length fp) by apply map_length. apply walk_in.
      unfold fp. destruct (al_slots a); [contradiction|discriminate]. }
    destruct (nth_error (al_slots a) i) as [s|] eqn:E; [|apply nth_error_None in E; lia]. now exists s.
  - intros rand rand' Hf Hf' H0 H H1.
    destruct (rand_ok rand Hf H0 ltac:(lra)) as (G & V & _). destruct (rand_ok rand' Hf' ltac:(lra) H1) as (G' & V' & _).
    destruct (mul_mono (f64_of_f32 rand) (f64_of_f32 rand') (total fp) G G' (total_good _ _ _ Hok Hn)) as (S & S' & L).
    + rewrite V, V'. exact H.
    + rewrite V'. lra.
    + exact (walk_mono fp _ _ S S' (probabilities_good _ _ _ Hok) L).
Qed.
