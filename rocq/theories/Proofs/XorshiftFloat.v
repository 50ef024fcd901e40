(** The float range of Xorshift128: errors of xs_next_float_randrange. *)
From Coq Require Import NArith ZArith QArith Qabs Qpower Lia Lqa SpecFloat Bool.
From Verif Require Import Base.Word Model.Float Model.Xorshift Spec.FloatSpec Proofs.FloatProofs.
Open Scope Q_scope.

Lemma value_fval x : value x == fval x.
Proof.
  destruct x as [s| | |s m e]; try reflexivity. cbn [value fval]. destruct s; cbn [signed]; [|reflexivity].
  change (inject_Z (Z.neg m)) with (- inject_Z (Z.pos m)). unfold p2. ring.
Qed.
Lemma finite_canonical prec emax x : finite prec emax x <-> canonical prec emax x.
Proof.
  destruct x as [s| | |s m e]; cbn [finite canonical]; try reflexivity.
  cbn [valid_binary]. unfold bounded, canonical_mantissa. rewrite andb_true_iff, Z.leb_le, <- Zeq_is_eq_bool. reflexivity.
Qed.

Lemma canonical_max prec emax x : (1 < prec)%Z -> canonical prec emax x -> Qabs (fval x) <= maxf prec emax.
Proof.
  intros Hp C. assert (P : 0 <= maxf prec emax).
  { unfold maxf. apply Qmult_le_0_compat; [|apply Qlt_le_weak, p2_pos]. change 0 with (inject_Z 0). rewrite <- Zle_Qle.
    pose proof (Z.pow_pos_nonneg 2 prec). lia. }
  destruct x as [s| | |s m e]; try contradiction; [exact P|]. cbn [fval].
  rewrite signed_abs by apply Qlt_le_weak, pos_val. destruct C as [F O].
  pose proof (digits_bounds m) as B.
  assert (D : (Zpos (digits2_pos m) <= prec)%Z) by (unfold fexp in F; lia).
  assert (M : (2 ^ Zpos (digits2_pos m) <= 2 ^ prec)%Z) by (apply Z.pow_le_mono_r; lia).
  unfold maxf. apply Qle_trans with (inject_Z (2 ^ prec - 1) * p2 e).
  - apply Qmult_le_compat_r; [|apply Qlt_le_weak, p2_pos]. rewrite <- Zle_Qle. lia.
  - rewrite !(Qmult_comm (inject_Z _)). apply Qmult_le_compat_r; [now apply p2_le|].
    change 0 with (inject_Z 0). rewrite <- Zle_Qle. lia.
Qed.
Lemma widen x : canonical 24 128 x -> canonical 53 1024 (f64_of_f32 x) /\ fval (f64_of_f32 x) == fval x.
Proof.
  intros C. destruct x as [s| | |s m e]; try contradiction; [now split|].
  unfold f64_of_f32, f_round. destruct (canonical_split _ _ _ _ _ C) as (_ & D & E).
  assert (Dm : Zdigits2 (if s then Z.neg m else Z.pos m) = Zpos (digits2_pos m)) by now destruct s.
  destruct (normalize_exact 53 1024 ltac:(lia) ltac:(lia) (if s then Z.neg m else Z.pos m) e s) as [C' V'];
    rewrite ?Dm; unfold emin in *; [lia..|]. split; [exact C'|]. rewrite V'. cbn [fval].
  destruct s; cbn [signed]; [change (inject_Z (Z.neg m)) with (- inject_Z (Z.pos m)); ring|reflexivity].
Qed.
Lemma max32 : maxf 24 128 <= p2 128.
Proof.
  unfold maxf. change 128%Z with (24 + 104)%Z at 2. rewrite p2_plus. apply Qmult_le_compat_r; [discriminate|].
  apply Qlt_le_weak, p2_pos.
Qed.
Lemma max64 : p2 900 <= maxf 53 1024.
Proof.
  unfold maxf. change 900%Z with (0 + 900)%Z. rewrite p2_plus. apply Qle_trans with (p2 0 * p2 971).
  - rewrite !(Qmult_comm (p2 0)). apply Qmult_le_compat_r; [apply p2_le; lia|discriminate].
  - apply Qmult_le_compat_r; [discriminate|]. apply Qlt_le_weak, p2_pos.
Qed.

(** Multiplication by one. *)
Lemma mul_one prec emax one y : (1 < prec)%Z -> (prec < emax)%Z -> canonical prec emax one -> fval one == 1 ->
  canonical prec emax y -> canonical prec emax (SFmul prec emax one y) /\ fval (SFmul prec emax one y) == fval y.
Proof.
  intros Hp He C1 V1 Cy.
  assert (V : fval one * fval y == fval y) by (rewrite V1; ring).
  assert (R : rounded prec emax (SFmul prec emax one y) (fval one * fval y)).
  { apply mul_ok; try assumption. rewrite V. now apply canonical_max. }
  split; [apply R|]. pose proof (rounded_fixed _ _ _ _ y R Cy ltac:(symmetry; exact V)) as E. now rewrite E.
Qed.
Definition one64 := f64_of_N 1.
Lemma one64_ok : canonical 53 1024 one64 /\ fval one64 == 1.
Proof. split; [now vm_compute|reflexivity]. Qed.

Definition TOP : Z := 8388607.
Definition ratio (k : Z) : spec_float := f32_div (f32_of_Z k) (f32_of_Z TOP).
Definition mix (r lo hi : spec_float) : spec_float :=
  f64_add (f64_of_f32 (f32_mul r lo)) (f64_mul (f64_sub one64 (f64_of_f32 r)) (f64_of_f32 hi)).
Lemma randrange_mix m st lo hi :
  snd (xs_next_float_randrange m st lo hi) = mix (ratio (Z.of_N (N.land (snd (xs_next m st)) 0x7FFFFF))) lo hi.
Proof. unfold xs_next_float_randrange. now destruct (xs_next m st). Qed.

(** The ratio k / (2^23 - 1), for 0 < k < 2^23 - 1. *)
Lemma of_Z_val k : (0 < k < 8388608)%Z -> exists m e, f32_of_Z k = S754_finite false m e /\
  canonical 24 128 (S754_finite false m e) /\ inject_Z (Zpos m) * p2 e == inject_Z k.
Proof.
  intros Hs. assert (D : (Zdigits2 k <= 23)%Z) by (apply Zdigits_le; [lia|change (2 ^ 23)%Z with 8388608%Z; lia]).
  destruct (normalize_exact 24 128 ltac:(lia) ltac:(lia) k 0 false) as [C V];
    [lia|unfold emin; lia|lia|]. fold (f32_of_Z k) in C, V.
  rewrite Qmult_1_r in V. unfold f32_of_Z, binary_normalize in *. destruct k as [|p|p]; [lia| |lia].
  pose proof (round_ok 24 128 ltac:(lia) ltac:(lia) false p 0) as R.
  destruct R as [_ [E|(m & e & E)]].
  { rewrite Qmult_1_r. unfold maxf. change (128 - 24)%Z with 104%Z.
    rewrite p2_Z, <- inject_Z_mult, <- Zle_Qle by lia. apply Z.le_trans with 8388608%Z; [apply Z.lt_le_incl, Hs|].
    apply Z.leb_le. now vm_compute. }
  - rewrite E in V. cbn [fval] in V. exfalso. unfold Qeq in V. cbn in V. lia.
  - exists m, e. rewrite E in *. repeat split; [apply C|apply C|]. exact V.
Qed.
Lemma ratio_ok k : (0 < k < TOP)%Z -> let t := inject_Z k / inject_Z TOP in
  canonical 24 128 (ratio k) /\ Qabs (fval (ratio k) - t) <= (1 # 33554432) /\
  Qabs (fval (ratio k) - t) <= (1 # 16777216) * t.
Proof.
  intros Hk t. unfold TOP in *.
  destruct (of_Z_val k ltac:(lia)) as (m & e & E & C & V).
  destruct (of_Z_val 8388607 ltac:(lia)) as (m' & e' & E' & C' & V').
  assert (Qk : 1 <= inject_Z k /\ inject_Z k <= 8388606).
  { split; [change 1 with (inject_Z 1)|change 8388606 with (inject_Z 8388606)]; rewrite <- Zle_Qle; lia. }
  assert (T : inject_Z k == 8388607 * t) by (unfold t; change (inject_Z 8388607) with 8388607; field).
  assert (Bt : (1 # 8388608) <= t /\ t <= 8388606 # 8388607) by lra.
  unfold ratio, TOP. rewrite E, E'.
  assert (Vt : fval (S754_finite false m e) / fval (S754_finite false m' e') == t).
  { cbn [fval signed]. rewrite V, V'. reflexivity. }
  assert (Dg : (-23 <= Zpos (digits2_pos m) + e - (Zpos (digits2_pos m') + e'))%Z).
  { pose proof (digits_bounds m) as B. pose proof (digits_bounds m') as B'.
    assert (K : p2 (Zpos (digits2_pos m') - 1 + e' - 23) < p2 (Zpos (digits2_pos m) + e)).
    { apply Qle_lt_trans with (inject_Z 8388607 * p2 (- 23)).
      - unfold Z.sub at 1. rewrite (p2_plus (Zpos (digits2_pos m') - 1 + e') (-23)).
        apply Qmult_le_compat_r; [|discriminate]. rewrite <- V', p2_plus, p2_Z by lia.
        apply Qmult_le_compat_r; [|apply Qlt_le_weak, p2_pos]. rewrite <- Zle_Qle. lia.
      - apply Qlt_le_trans with 1; [reflexivity|]. apply Qle_trans with (1 := proj1 Qk). rewrite <- V.
        rewrite p2_plus, (p2_Z (Zpos (digits2_pos m))) by lia.
        apply Qmult_le_compat_r; [|apply Qlt_le_weak, p2_pos]. rewrite <- Zle_Qle. lia. }
    apply p2_lt_inv in K. lia. }
  assert (At : Qabs t == t) by (apply Qabs_pos; lra).
  assert (R : rounded 24 128 (f32_div (S754_finite false m e) (S754_finite false m' e')) t).
  { rewrite <- Vt. apply div_ok; [lia|lia|unfold emin; lia|].
    rewrite Vt, At. apply Qle_trans with 1; [lra|discriminate]. }
  split; [apply R|]. split.
  - pose proof (rounded_abs _ _ _ _ 0 R) as A. apply A. rewrite At. change (p2 0) with 1. lra.
  - pose proof (rounded_rel _ _ _ _ R) as A. rewrite At in A. apply A.
    unfold emin. apply Qle_trans with (p2 (-23)); [apply p2_le; lia|]. exact (proj1 Bt).
Qed.

(** ** The mixture *)
Lemma abs_split x w : Qabs x <= w -> - w <= x /\ x <= w.
Proof. apply Qabs_Qle_condition. Qed.
Lemma abs_join x w : - w <= x -> x <= w -> Qabs x <= w.
Proof. intros A B. now apply Qabs_Qle_condition. Qed.
Lemma p2_small : p2 (-1075) <= (1 # 1461501637330902918203684832716283019655932542976)%Q.
Proof. change (1 # 1461501637330902918203684832716283019655932542976) with (p2 (-160)). apply p2_le. lia. Qed.

Section Mix.
Variables r lo hi : spec_float.
Hypothesis Cr : canonical 24 128 r.
Hypothesis Clo : canonical 24 128 lo.
Hypothesis Chi : canonical 24 128 hi.
Hypothesis Hr : 0 <= fval r /\ fval r <= 1.
Let a := fval lo.
Let b := fval hi.
Let rr := fval r.

Lemma mix_error : canonical 53 1024 (mix r lo hi) /\
  exists e, fval (mix r lo hi) == rr * a + (1 - rr) * b + e /\
    Qabs e <= (1 # 16777216) * (rr * Qabs a) + (1 # 1125899906842624) * (Qabs a + Qabs b) + (1 # 713623846352979940529142984724747568191373312).
Proof.
  pose proof (canonical_max 24 128 _ ltac:(lia) Clo) as Ma. pose proof (canonical_max 24 128 _ ltac:(lia) Chi) as Mb.
  fold a in Ma. fold b in Mb. pose proof (Qabs_nonneg a) as Pa. pose proof (Qabs_nonneg b) as Pb.
  set (A := Qabs a) in *. set (B := Qabs b) in *. unfold rr in *. destruct Hr as [R0 R1].
  assert (RA : 0 <= fval r * A /\ fval r * A <= A) by nra. destruct RA as [RA0 RA1].
  pose proof p2_small as Ps. pose proof (p2_pos (-1075)) as Pp.
  assert (M900 : p2 128 * 1024 <= p2 900).
  { change 1024 with (p2 10). rewrite <- p2_plus. apply p2_le. lia. }
  pose proof max32 as M32. pose proof max64 as M64.
  assert (P128 : 1 <= p2 128) by (change 1 with (p2 0); apply p2_le; lia).
  (* the first product *)
  assert (R1' : rounded 24 128 (f32_mul r lo) (fval r * a)).
  { apply mul_ok; [lia|lia|exact Cr|exact Clo|]. fold a. rewrite Qabs_Qmult, (Qabs_pos (fval r)) by exact R0. fold A. lra. }
  pose proof (rounded_err _ _ _ _ R1') as E1.
  rewrite Qabs_Qmult, (Qabs_pos (fval r)) in E1 by exact R0. fold A in E1.
  change (u 24) with (1 # 16777216) in E1. change (eta 24 128) with (1 # 1427247692705959881058285969449495136382746624) in E1.
  destruct (widen _ (proj1 R1')) as [CP VP].
  (* the difference *)
  destruct (widen _ Cr) as [Cr' Vr]. destruct one64_ok as [C1 V1].
  assert (R2 : rounded 53 1024 (f64_sub one64 (f64_of_f32 r)) (fval one64 - fval (f64_of_f32 r))).
  { apply sub_ok; [lia|lia|exact C1|exact Cr'|]. rewrite V1, Vr. apply abs_join; lra. }
  assert (V2 : fval one64 - fval (f64_of_f32 r) == 1 - fval r) by now rewrite V1, Vr.
  rewrite V2 in R2.
  pose proof (rounded_abs _ _ _ _ 1 R2) as E2. change (fexp 53 1024 1) with (-52)%Z in E2.
  change ((1 # 2) * p2 (-52)) with (1 # 9007199254740992) in E2.
  specialize (E2 ltac:(apply Qle_lt_trans with 1; [apply abs_join; lra|reflexivity])).
  apply abs_split in E2.
  set (q := fval (f64_sub one64 (f64_of_f32 r))) in *.
  (* the second product *)
  destruct (widen _ Chi) as [Chi' Vhi]. fold b in Vhi.
  assert (Q2 : 0 <= Qabs q /\ Qabs q <= 2) by (split; [apply Qabs_nonneg|apply abs_join; lra]).
  assert (QB : Qabs (q * b) <= 2 * B) by (rewrite Qabs_Qmult; fold B; nra).
  assert (R3 : rounded 53 1024 (f64_mul (f64_sub one64 (f64_of_f32 r)) (f64_of_f32 hi)) (q * b)).
  { rewrite <- Vhi. apply mul_ok; [lia|lia|apply R2|exact Chi'|]. fold q. rewrite Vhi. lra. }
  pose proof (rounded_err _ _ _ _ R3) as E3.
  change (u 53) with (1 # 9007199254740992) in E3. change (eta 53 1024) with (p2 (-1075)) in E3.
  set (s := fval (f64_mul (f64_sub one64 (f64_of_f32 r)) (f64_of_f32 hi))) in *.
  (* the sum *)
  set (p := fval (f32_mul r lo)) in *.
  apply abs_split in E1. apply abs_split in E3.
  assert (Sp : Qabs p <= 2 * A + (1 # 1427247692705959881058285969449495136382746624)).
  { assert (K : Qabs (fval r * a) <= A) by (rewrite Qabs_Qmult, (Qabs_pos (fval r)) by exact R0; fold A; lra).
    apply abs_split in K. apply abs_join; lra. }
  assert (Ss : Qabs s <= 3 * B + (1 # 1461501637330902918203684832716283019655932542976)) by (pose proof QB as K; apply abs_split in K; apply abs_join; lra).
  assert (Sps : Qabs (p + s) <= 2 * A + 3 * B + (1 # 713623846352979940529142984724747568191373312)) by (eapply Qle_trans; [apply Qabs_triangle|lra]).
  assert (R4 : rounded 53 1024 (mix r lo hi) (p + s)).
  { unfold mix. rewrite <- VP. apply add_ok; [lia|lia|exact CP|apply R3|]. fold s. rewrite VP. lra. }
  pose proof (rounded_err _ _ _ _ R4) as E4.
  change (u 53) with (1 # 9007199254740992) in E4. change (eta 53 1024) with (p2 (-1075)) in E4.
  split; [apply R4|]. set (v := fval (mix r lo hi)) in *.
  exists ((p - fval r * a) + (q - (1 - fval r)) * b + (s - q * b) + (v - (p + s))).
  split; [ring|].
  apply abs_split in E4.
  assert (EB : Qabs ((q - (1 - fval r)) * b) <= (1 # 9007199254740992) * B).
  { rewrite Qabs_Qmult. fold B. apply Qmult_le_compat_r; [|exact Pb]. apply abs_join; lra. }
  apply abs_split in EB. set (eb := (q - (1 - fval r)) * b) in *. clearbody eb.
  apply abs_join; lra.
Qed.
End Mix.

(** ** The ends *)
Lemma ratio_0 : ratio 0 = S754_zero false.
Proof. reflexivity. Qed.
Lemma ratio_top : canonical 24 128 (ratio TOP) /\ fval (ratio TOP) == 1 /\
  f64_sub one64 (f64_of_f32 (ratio TOP)) = S754_zero false.
Proof. repeat split; now vm_compute. Qed.
Lemma add_zero_val s y : canonical 53 1024 y ->
  (canonical 53 1024 (f64_add (S754_zero s) y) /\ fval (f64_add (S754_zero s) y) == fval y) /\
  (canonical 53 1024 (f64_add y (S754_zero s)) /\ fval (f64_add y (S754_zero s)) == fval y).
Proof.
  intros C. destruct y as [t| | |t m e]; try contradiction.
  - unfold f64_add, SFadd. destruct (eqb s t), (eqb t s); repeat split.
  - repeat split; apply C.
Qed.
Lemma mix_0 lo hi : canonical 24 128 lo -> canonical 24 128 hi ->
  canonical 53 1024 (mix (ratio 0) lo hi) /\ fval (mix (ratio 0) lo hi) == fval hi.
Proof.
  intros Clo Chi. rewrite ratio_0. unfold mix. destruct (widen _ Chi) as [C V].
  assert (E : exists s, f64_of_f32 (f32_mul (S754_zero false) lo) = S754_zero s).
  { destruct lo as [s| | |s m e]; try contradiction; eexists; reflexivity. }
  destruct E as [s ->].
  assert (O : f64_sub one64 (f64_of_f32 (S754_zero false)) = one64) by reflexivity. rewrite O.
  destruct one64_ok as [C1 V1].
  destruct (mul_one 53 1024 one64 (f64_of_f32 hi) ltac:(lia) ltac:(lia) C1 V1 C) as [C2 V2].
  destruct (add_zero_val s _ C2) as [[A B] _]. split; [exact A|]. unfold f64_mul. rewrite B, V2. exact V.
Qed.
Lemma mix_top lo hi : canonical 24 128 lo -> canonical 24 128 hi ->
  canonical 53 1024 (mix (ratio TOP) lo hi) /\ fval (mix (ratio TOP) lo hi) == fval lo.
Proof.
  intros Clo Chi. destruct ratio_top as (C1 & V1 & S). unfold mix. rewrite S.
  destruct (mul_one 24 128 (ratio TOP) lo ltac:(lia) ltac:(lia) C1 V1 Clo) as [C2 V2].
  destruct (widen _ C2) as [C3 V3].
  assert (E : exists s, f64_mul (S754_zero false) (f64_of_f32 hi) = S754_zero s).
  { destruct (widen _ Chi) as [C _]. destruct (f64_of_f32 hi) as [s| | |s m e]; try contradiction; eexists; reflexivity. }
  destruct E as [s ->].
  destruct (add_zero_val s _ C3) as [_ [A B]]. split; [exact A|]. unfold f32_mul. rewrite B, V3. exact V2.
Qed.

(** ** The statements *)
Lemma ratio_range k : (0 < k < TOP)%Z -> let t := inject_Z k / inject_Z TOP in
  (1 # 8388607) <= t /\ t <= 8388606 # 8388607 /\ 0 <= fval (ratio k) /\ fval (ratio k) <= 1.
Proof.
  intros Hk t. destruct (ratio_ok k Hk) as (_ & E1 & E2). fold t in E1, E2. unfold TOP in *.
  assert (Qk : 1 <= inject_Z k /\ inject_Z k <= 8388606).
  { split; [change 1 with (inject_Z 1)|change 8388606 with (inject_Z 8388606)]; rewrite <- Zle_Qle; lia. }
  assert (T : inject_Z k == 8388607 * t) by (unfold t; change (inject_Z 8388607) with 8388607; field).
  apply abs_split in E1. apply abs_split in E2. clearbody t. repeat split; lra.
Qed.

Lemma mix_bound k lo hi : (0 <= k <= TOP)%Z -> canonical 24 128 lo -> canonical 24 128 hi ->
  let t := inject_Z k / inject_Z TOP in
  let a := fval lo in let b := fval hi in
  canonical 53 1024 (mix (ratio k) lo hi) /\
  Qabs (fval (mix (ratio k) lo hi) - (t * a + (1 - t) * b)) <=
    (1 # 8388608) * (Qabs a + Qabs b) + (1 # 713623846352979940529142984724747568191373312).
Proof.
  intros Hk Clo Chi t a b. pose proof (Qabs_nonneg a) as Pa. pose proof (Qabs_nonneg b) as Pb.
  destruct (Z.eq_dec k 0) as [K0|K0]; [|destruct (Z.eq_dec k TOP) as [K1|K1]].
  - destruct (mix_0 lo hi Clo Chi) as [C V]. unfold t. rewrite K0. split; [exact C|].
    rewrite V. fold b. setoid_replace (inject_Z 0 / inject_Z TOP) with 0 by reflexivity. apply abs_join; lra.
  - destruct (mix_top lo hi Clo Chi) as [C V]. unfold t. rewrite K1. split; [exact C|].
    rewrite V. fold a. setoid_replace (inject_Z TOP / inject_Z TOP) with 1 by reflexivity. apply abs_join; lra.
  - assert (Hk' : (0 < k < TOP)%Z) by lia.
    destruct (ratio_ok k Hk') as (Cr & E1 & E2). destruct (ratio_range k Hk') as (T0 & T1 & R0 & R1). fold t in E1, E2, T0, T1.
    destruct (mix_error (ratio k) lo hi Cr Clo Chi (conj R0 R1)) as (C & e & V & He). fold a b in V, He.
    split; [exact C|]. rewrite V. set (r := fval (ratio k)) in *.
    setoid_replace (r * a + (1 - r) * b + e - (t * a + (1 - t) * b)) with ((r - t) * (a - b) + e) by ring.
    assert (M : Qabs ((r - t) * (a - b)) <= (1 # 33554432) * (Qabs a + Qabs b)).
    { rewrite Qabs_Qmult. apply Qle_trans with ((1 # 33554432) * Qabs (a - b)).
      - apply Qmult_le_compat_r; [exact E1|apply Qabs_nonneg].
      - apply Qmult_le_l; [reflexivity|]. unfold Qminus. eapply Qle_trans; [apply Qabs_triangle|].
        rewrite Qabs_opp. apply Qle_refl. }
    assert (RA : r * Qabs a <= Qabs a) by nra.
    eapply Qle_trans; [apply Qabs_triangle|]. lra.
Qed.

Lemma mix_range k lo hi : (0 <= k <= TOP)%Z -> canonical 24 128 lo -> canonical 24 128 hi ->
  let a := fval lo in let b := fval hi in
  3 * Qabs a <= 4 * (b - a) -> p2 (-100) <= b - a ->
  a <= fval (mix (ratio k) lo hi) /\ fval (mix (ratio k) lo hi) <= b /\
  (fval (mix (ratio k) lo hi) == b <-> k = 0%Z).
Proof.
  intros Hk Clo Chi a b Hw Hs. pose proof (Qabs_nonneg a) as Pa. pose proof (Qabs_nonneg b) as Pb.
  change (p2 (-100)) with (1 # 1267650600228229401496703205376) in Hs.
  destruct (Z.eq_dec k 0) as [K0|K0]; [|destruct (Z.eq_dec k TOP) as [K1|K1]].
  - destruct (mix_0 lo hi Clo Chi) as [C V]. rewrite K0, V. fold b. repeat split; [lra|lra].
  - destruct (mix_top lo hi Clo Chi) as [C V]. rewrite K1, V. fold a. split; [lra|]. split; [lra|].
    split; [intros E; exfalso; lra|discriminate].
  - assert (Hk' : (0 < k < TOP)%Z) by lia.
    destruct (ratio_ok k Hk') as (Cr & E1 & E2). destruct (ratio_range k Hk') as (T0 & T1 & R0 & R1).
    set (t := inject_Z k / inject_Z TOP) in *.
    destruct (mix_error (ratio k) lo hi Cr Clo Chi (conj R0 R1)) as (C & e & V & He). fold a b in V, He.
    rewrite V. set (r := fval (ratio k)) in *. set (D := b - a) in *.
    assert (B : Qabs b <= D + Qabs a).
    { setoid_replace b with (D + a) by (unfold D; ring). eapply Qle_trans; [apply Qabs_triangle|].
      rewrite (Qabs_pos D) by lra. apply Qle_refl. }
    apply abs_split in E1. apply abs_split in E2. apply abs_split in He.
    assert (X : r * a + (1 - r) * b + e == b - r * D + e) by (unfold D; ring).
    assert (RA : r * Qabs a <= Qabs a) by nra.
    assert (RA2 : r * Qabs a <= 2 * t * Qabs a) by nra.
    (* below: r <= t + 2^-25 and t <= 1 - 1/TOP *)
    assert (L1 : r * D <= (t + (1 # 33554432)) * D) by (apply Qmult_le_compat_r; lra).
    assert (L2 : t * D <= (8388606 # 8388607) * D) by (apply Qmult_le_compat_r; lra).
    (* above: r >= (1 - 2^-24) t and t >= 1/TOP *)
    assert (U1 : (16777215 # 16777216) * t * D <= r * D) by (apply Qmult_le_compat_r; lra).
    assert (U2 : (1 # 8388607) * D <= t * D) by (apply Qmult_le_compat_r; lra).
    assert (U3 : t * (3 * Qabs a) <= t * (4 * D)) by (rewrite !(Qmult_comm t); apply Qmult_le_compat_r; lra).
    assert (RA3 : r * Qabs a <= (8 # 3) * (t * D)) by lra.
    rewrite X. assert (Ba : b - D == a) by (unfold D; ring).
    assert (Lo : a <= b - r * D + e) by lra.
    assert (Up : b - r * D + e < b) by lra.
    repeat split; [exact Lo|lra|intros E; exfalso; lra|intros; contradiction].
Qed.

Lemma land_top n : (0 <= Z.of_N (N.land n 0x7FFFFF) <= TOP)%Z.
Proof.
  assert (H : (N.land n 0x7FFFFF < 8388608)%N).
  { change 0x7FFFFF%N with (N.ones 23). rewrite N.land_ones. now apply N.mod_lt. }
  unfold TOP. generalize dependent (N.land n 0x7FFFFF). intros k H. lia.
Qed.

Lemma land_mod n : N.land n 0x7FFFFF = (n mod 2 ^ 23)%N.
Proof. change 0x7FFFFF%N with (N.ones 23). apply N.land_ones. Qed.
Lemma float_mixture : forall m st lo hi, float32 lo -> float32 hi ->
  let v := snd (xs_next_float_randrange m st lo hi) in
  let k := (snd (xs_next m st) mod 2 ^ 23)%N in
  let t := inject_Z (Z.of_N k) / inject_Z (2 ^ 23 - 1) in
  float64 v /\
  Qabs (value v - (t * value lo + (1 - t) * value hi)) <=
    (2 # 1) ^ (-23) * (Qabs (value lo) + Qabs (value hi)) + (2 # 1) ^ (-149).
Proof.
  intros m st lo hi Hlo Hhi v k t. apply finite_canonical in Hlo, Hhi.
  pose proof (land_top (snd (xs_next m st))) as Hk. unfold v. rewrite randrange_mix.
  rewrite land_mod in *. fold k in Hk. fold k.
  destruct (mix_bound (Z.of_N k) lo hi Hk Hlo Hhi) as [C E].
  split; [now apply finite_canonical|]. rewrite !value_fval. exact E.
Qed.
Lemma float_range : forall m st lo hi, float32 lo -> float32 hi ->
  3 * Qabs (value lo) <= 4 * (value hi - value lo) -> (2 # 1) ^ (-100) <= value hi - value lo ->
  let v := snd (xs_next_float_randrange m st lo hi) in
  value lo <= value v /\ value v <= value hi /\
  (value v == value hi <-> (snd (xs_next m st) mod 2 ^ 23 = 0)%N).
Proof.
  intros m st lo hi Hlo Hhi Hw Hs v. apply finite_canonical in Hlo, Hhi.
  pose proof (land_top (snd (xs_next m st))) as Hk. unfold v. rewrite randrange_mix.
  rewrite land_mod in *. set (k := (snd (xs_next m st) mod 2 ^ 23)%N) in *.
  rewrite !value_fval in *. destruct (mix_range (Z.of_N k) lo hi Hk Hlo Hhi Hw Hs) as (A & B & E).
  split; [exact A|]. split; [exact B|]. rewrite E. lia.
Qed.
