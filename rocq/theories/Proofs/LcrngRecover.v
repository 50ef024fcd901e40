(** Which seeds share their first outputs: the differences of two such runs are short
    vectors of a lattice, and short integer relations force them to be zero. *)
From Coq Require Import NArith ZArith List Bool Lia.
From Verif Require Import Base.Word Base.WordLemmas Model.Compat Model.Lcrng32 Model.Lcrng64
  Model.LcrngClasses Spec.RecoverSpec.
Import ListNotations.
Ltac Zify.zify_post_hook ::= idtac.
Open Scope Z_scope.

(** A row (a, b, c) with a + b*k1 + c*k2 = 0 modulo M and |a| + |b| + |c| <= M / B. *)
Definition row_ok (M B k1 k2 : Z) (r : Z * Z * Z) : bool :=
  let '(a, b, c) := r in
  ((a + b * k1 + c * k2) mod M =? 0) && ((Z.abs a + Z.abs b + Z.abs c) * B <=? M).
Definition det (r1 r2 r3 : Z * Z * Z) : Z :=
  let '(a1, b1, c1) := r1 in let '(a2, b2, c2) := r2 in let '(a3, b3, c3) := r3 in
  a1 * (b2 * c3 - b3 * c2) - b1 * (a2 * c3 - a3 * c2) + c1 * (a2 * b3 - a3 * b2).
Definition rows_ok (M B k1 k2 : Z) (r1 r2 r3 : Z * Z * Z) : bool :=
  row_ok M B k1 k2 r1 && row_ok M B k1 k2 r2 && row_ok M B k1 k2 r3 && negb (det r1 r2 r3 =? 0).

Lemma abs_mul_le x y B : Z.abs y < B -> Z.abs (x * y) <= Z.abs x * (B - 1).
Proof.
  intros Hy. rewrite Z.abs_mul. pose proof (Z.abs_nonneg x). pose proof (Z.abs_nonneg y).
  apply Z.mul_le_mono_nonneg_l; [assumption|]. lia.
Qed.

Lemma sum_bound E P pa pb pc a b c B M : 0 <= a -> 0 <= b -> 0 <= c -> 0 < M -> 0 < B ->
  pa <= a * (B - 1) -> pb <= b * (B - 1) -> pc <= c * (B - 1) ->
  E <= P + pc -> P <= pa + pb -> (a + b + c) * B <= M -> E < M.
Proof.
  intros Ha Hb Hc HM HB H1 H2 H3 H4 H5 H6.
  assert (HS : E <= (a + b + c) * B - (a + b + c)).
  { replace ((a + b + c) * B - (a + b + c)) with (a * (B - 1) + b * (B - 1) + c * (B - 1)) by ring. lia. }
  destruct (Z.eq_dec (a + b + c) 0) as [Z0|Z0]; [rewrite Z0 in HS; lia|lia].
Qed.

Lemma row_zero M B k1 k2 a b c d0 d1 d2 q1 q2 : 0 < M -> 0 < B ->
  row_ok M B k1 k2 (a, b, c) = true ->
  Z.abs d0 < B -> Z.abs d1 < B -> Z.abs d2 < B ->
  d1 = k1 * d0 + M * q1 -> d2 = k2 * d0 + M * q2 ->
  a * d0 + b * d1 + c * d2 = 0.
Proof.
  intros HM HB H A0 A1 A2 E1 E2. unfold row_ok in H. apply andb_prop in H. destruct H as [Ha Hb].
  apply Z.eqb_eq in Ha. apply Z.leb_le in Hb.
  apply Z.mod_divide in Ha; [|lia]. destruct Ha as [t Ht].
  assert (HE : a * d0 + b * d1 + c * d2 = M * (t * d0 + b * q1 + c * q2)).
  { subst d1 d2. replace (a * d0 + b * (k1 * d0 + M * q1) + c * (k2 * d0 + M * q2))
      with ((a + b * k1 + c * k2) * d0 + M * (b * q1 + c * q2)) by ring. rewrite Ht. ring. }
  set (E := a * d0 + b * d1 + c * d2) in *. set (z := t * d0 + b * q1 + c * q2) in *.
  assert (HA : Z.abs E < M).
  { pose proof (abs_mul_le a d0 B A0) as Q0. pose proof (abs_mul_le b d1 B A1) as Q1.
    pose proof (abs_mul_le c d2 B A2) as Q2.
    pose proof (Z.abs_triangle (a * d0 + b * d1) (c * d2)) as T1. fold E in T1.
    pose proof (Z.abs_triangle (a * d0) (b * d1)) as T2.
    exact (sum_bound _ _ _ _ _ _ _ _ _ _ (Z.abs_nonneg a) (Z.abs_nonneg b) (Z.abs_nonneg c)
             HM HB Q0 Q1 Q2 T1 T2 Hb). }
  clearbody E z. clear - HM HE HA. subst E. rewrite Z.abs_mul in HA.
  assert (z = 0); [|subst z; ring].
  destruct (Z.eq_dec z 0) as [|Hz]; [assumption|].
  assert (M * 1 <= Z.abs M * Z.abs z) by (apply Z.mul_le_mono_nonneg; lia). lia.
Qed.

Lemma rows_zero M B k1 k2 r1 r2 r3 d0 d1 d2 q1 q2 : 0 < M -> 0 < B ->
  rows_ok M B k1 k2 r1 r2 r3 = true ->
  Z.abs d0 < B -> Z.abs d1 < B -> Z.abs d2 < B ->
  d1 = k1 * d0 + M * q1 -> d2 = k2 * d0 + M * q2 -> d0 = 0.
Proof.
  intros HM HB H A0 A1 A2 E1 E2. unfold rows_ok in H.
  destruct r1 as [[a1 b1] c1], r2 as [[a2 b2] c2], r3 as [[a3 b3] c3].
  apply andb_prop in H. destruct H as [H Hd]. apply andb_prop in H. destruct H as [H H3].
  apply andb_prop in H. destruct H as [H1 H2].
  pose proof (row_zero _ _ _ _ _ _ _ _ _ _ _ _ HM HB H1 A0 A1 A2 E1 E2) as R1.
  pose proof (row_zero _ _ _ _ _ _ _ _ _ _ _ _ HM HB H2 A0 A1 A2 E1 E2) as R2.
  pose proof (row_zero _ _ _ _ _ _ _ _ _ _ _ _ HM HB H3 A0 A1 A2 E1 E2) as R3.
  clear H1 H2 H3 E1 E2 A0 A1 A2.
  assert (D : det (a1, b1, c1) (a2, b2, c2) (a3, b3, c3) * d0 = 0).
  { unfold det.
    replace ((a1 * (b2 * c3 - b3 * c2) - b1 * (a2 * c3 - a3 * c2) + c1 * (a2 * b3 - a3 * b2)) * d0)
      with ((b2 * c3 - b3 * c2) * (a1 * d0 + b1 * d1 + c1 * d2)
            - (b1 * c3 - b3 * c1) * (a2 * d0 + b2 * d1 + c2 * d2)
            + (b1 * c2 - b2 * c1) * (a3 * d0 + b3 * d1 + c3 * d2)) by ring.
    rewrite R1, R2, R3. ring. }
  apply Z.mul_eq_0 in D. destruct D as [D|D]; [|exact D].
  rewrite D in Hd. discriminate.
Qed.

(** ** Steps *)
Lemma next_diff (W : Z) (f : N -> N) (add mult s s' : N) : W <> 0 ->
  (forall x, Z.of_N (f x) = (Z.of_N x * Z.of_N mult + Z.of_N add) mod W) ->
  exists q, Z.of_N (f s) - Z.of_N (f s') = Z.of_N mult * (Z.of_N s - Z.of_N s') + W * q.
Proof.
  intros HW Hf. rewrite !Hf. set (x := Z.of_N s * Z.of_N mult + Z.of_N add). set (y := Z.of_N s' * Z.of_N mult + Z.of_N add).
  exists (y / W - x / W). rewrite (Z.mod_eq x W HW), (Z.mod_eq y W HW). unfold x, y. ring.
Qed.
Lemma next32_Z add mult x :
  Z.of_N (lcrng32_next add mult x) = (Z.of_N x * Z.of_N mult + Z.of_N add) mod 4294967296.
Proof. unfold lcrng32_next, w32. now rewrite N2Z.inj_mod, N2Z.inj_add, N2Z.inj_mul. Qed.
Lemma next64_Z add mult x :
  Z.of_N (lcrng64_next add mult x) = (Z.of_N x * Z.of_N mult + Z.of_N add) mod 18446744073709551616.
Proof. unfold lcrng64_next, w64. now rewrite N2Z.inj_mod, N2Z.inj_add, N2Z.inj_mul. Qed.

(** Equal high halves: the difference is less than the low half. *)
Lemma high_close (x y b : N) : (0 < b)%N -> (x / b = y / b)%N -> Z.abs (Z.of_N x - Z.of_N y) < Z.of_N b.
Proof.
  intros Hb H. pose proof (N.div_mod' x b) as X. pose proof (N.div_mod' y b) as Y.
  pose proof (N.mod_lt x b ltac:(lia)). pose proof (N.mod_lt y b ltac:(lia)). rewrite H in X. lia.
Qed.
Lemma u16_close x y : (w16 (N.shiftr (w32 x) 16) = w16 (N.shiftr (w32 y) 16))%N ->
  (x < 4294967296)%N -> (y < 4294967296)%N -> Z.abs (Z.of_N x - Z.of_N y) < 65536.
Proof.
  intros H Hx Hy. rewrite !w32_small, !N.shiftr_div_pow2 in H by assumption.
  change (2 ^ 16)%N with 65536%N in H.
  rewrite !w16_small in H by (apply N.div_lt_upper_bound; [discriminate|exact Hx || exact Hy]).
  exact (high_close x y 65536 eq_refl H).
Qed.
Lemma u32_close x y : (w32 (N.shiftr (w64 x) 32) = w32 (N.shiftr (w64 y) 32))%N ->
  (x < 18446744073709551616)%N -> (y < 18446744073709551616)%N ->
  Z.abs (Z.of_N x - Z.of_N y) < 4294967296.
Proof.
  intros H Hx Hy. rewrite !w64_small, !N.shiftr_div_pow2 in H by assumption.
  change (2 ^ 32)%N with 4294967296%N in H.
  rewrite !w32_small in H by (apply N.div_lt_upper_bound; [discriminate|exact Hx || exact Hy]).
  exact (high_close x y 4294967296 eq_refl H).
Qed.

Lemma next32_lt add mult x : (lcrng32_next add mult x < 4294967296)%N.
Proof. apply w32_lt. Qed.
Lemma next64_lt add mult x : (lcrng64_next add mult x < 18446744073709551616)%N.
Proof. apply w64_lt. Qed.

(** An odd multiplier is cancelled: [inv] is its inverse. *)
Lemma step_injective (W : Z) (f : N -> N) (add mult s s' : N) (inv : Z) : 0 < W ->
  (forall x, Z.of_N (f x) = (Z.of_N x * Z.of_N mult + Z.of_N add) mod W) ->
  (Z.of_N mult * inv) mod W = 1 mod W ->
  Z.of_N s < W -> Z.of_N s' < W -> f s = f s' -> s = s'.
Proof.
  intros HW Hf Hi Hs Hs' E.
  destruct (next_diff W f add mult s s' ltac:(lia) Hf) as [q Hq]. rewrite E, Z.sub_diag in Hq.
  set (d := Z.of_N s - Z.of_N s') in *.
  assert (Hd : d mod W = 0).
  { replace d with (d * 1) by ring. rewrite Z.mul_mod, <- Hi, <- Z.mul_mod by lia.
    replace (d * (Z.of_N mult * inv)) with (inv * (Z.of_N mult * d)) by ring.
    replace (Z.of_N mult * d) with (- q * W) by lia. rewrite Z.mul_assoc. apply Z.mod_mul. lia. }
  apply Z.mod_divide in Hd; [|lia]. destruct Hd as [k Hk]. assert (k = 0) by nia. subst k. lia.
Qed.

Lemma cons3 (a b c a' b' c' : N) : [a; b; c] = [a'; b'; c'] -> a = a' /\ b = b' /\ c = c'.
Proof. intros H. injection H. auto. Qed.
Lemma cons2 (a b a' b' : N) : [a; b] = [a'; b'] -> a = a' /\ b = b'.
Proof. intros H. injection H. auto. Qed.

Lemma recover32 add mult r1 r2 r3 inv s s' :
  rows_ok 4294967296 65536 (Z.of_N mult) (Z.of_N mult * Z.of_N mult) r1 r2 r3 = true ->
  (Z.of_N mult * inv) mod 4294967296 = 1 ->
  (s < 4294967296)%N -> (s' < 4294967296)%N ->
  results (lcrng32_next_u16 add mult) 3 s = results (lcrng32_next_u16 add mult) 3 s' -> s = s'.
Proof.
  intros R Hi Hs Hs' E. unfold results, lcrng32_next_u16 in E. cbv zeta iota beta in E.
  set (f := lcrng32_next add mult) in *.
  destruct (cons3 _ _ _ _ _ _ E) as [E1 [E2 E3]]. clear E.
  apply u16_close in E1; try apply next32_lt. apply u16_close in E2; try apply next32_lt.
  apply u16_close in E3; try apply next32_lt.
  destruct (next_diff 4294967296 f add mult (f s) (f s') ltac:(discriminate) (next32_Z add mult)) as [q1 Q1].
  destruct (next_diff 4294967296 f add mult (f (f s)) (f (f s')) ltac:(discriminate) (next32_Z add mult)) as [q2 Q2].
  apply (step_injective 4294967296 f add mult s s' inv); try assumption; try lia; [exact (next32_Z add mult)|].
  assert (D : Z.of_N (f s) - Z.of_N (f s') = 0).
  { refine (rows_zero 4294967296 65536 _ _ r1 r2 r3 _ _ _ q1 (Z.of_N mult * q1 + q2) ltac:(lia) ltac:(lia) R E1 E2 E3 Q1 _).
    rewrite Q2, Q1. ring. }
  lia.
Qed.
Lemma recover64 add mult r1 r2 r3 inv s s' :
  rows_ok 18446744073709551616 4294967296 (Z.of_N mult) (Z.of_N mult * Z.of_N mult) r1 r2 r3 = true ->
  (Z.of_N mult * inv) mod 18446744073709551616 = 1 ->
  (s < 18446744073709551616)%N -> (s' < 18446744073709551616)%N ->
  results (lcrng64_next_u32 add mult) 3 s = results (lcrng64_next_u32 add mult) 3 s' -> s = s'.
Proof.
  intros R Hi Hs Hs' E. unfold results, lcrng64_next_u32 in E. cbv zeta iota beta in E.
  set (f := lcrng64_next add mult) in *.
  destruct (cons3 _ _ _ _ _ _ E) as [E1 [E2 E3]]. clear E.
  apply u32_close in E1; try apply next64_lt. apply u32_close in E2; try apply next64_lt.
  apply u32_close in E3; try apply next64_lt.
  destruct (next_diff 18446744073709551616 f add mult (f s) (f s') ltac:(discriminate) (next64_Z add mult)) as [q1 Q1].
  destruct (next_diff 18446744073709551616 f add mult (f (f s)) (f (f s')) ltac:(discriminate) (next64_Z add mult)) as [q2 Q2].
  apply (step_injective 18446744073709551616 f add mult s s' inv); try assumption; try lia; [exact (next64_Z add mult)|].
  assert (D : Z.of_N (f s) - Z.of_N (f s') = 0).
  { refine (rows_zero 18446744073709551616 4294967296 _ _ r1 r2 r3 _ _ _ q1 (Z.of_N mult * q1 + q2) ltac:(lia) ltac:(lia) R E1 E2 E3 Q1 _).
    rewrite Q2, Q1. ring. }
  lia.
Qed.

(** ** The published generators *)
Lemma consts32_poke_r minor : lcrng32_consts minor 0x6073 0x41C64E6D true = Ok (0xA3561A1, 0xEEB9EB65)%N.
Proof. unfold lcrng32_consts, mod_inv. destruct (minor <? 8)%N; vm_compute; reflexivity. Qed.
Lemma consts32_arng_r minor : lcrng32_consts minor 1 0x6C078965 true = Ok (0x69C77F93, 0x9638806D)%N.
Proof. unfold lcrng32_consts, mod_inv. destruct (minor <? 8)%N; vm_compute; reflexivity. Qed.
Lemma consts32_xd_r minor : lcrng32_consts minor 0x269EC3 0x343FD true = Ok (0xA170F641, 0xB9B33155)%N.
Proof. unfold lcrng32_consts, mod_inv. destruct (minor <? 8)%N; vm_compute; reflexivity. Qed.
Lemma consts64_bw_r minor :
  lcrng64_consts minor 0x269EC3 0x5D588B656C078965 true = Ok (0x9B1AE6E9A384E6F9, 0xDEDCEDAE9638806D)%N.
Proof. unfold lcrng64_consts, mod_inv. destruct (minor <? 8)%N; vm_compute; reflexivity. Qed.

Lemma recover_published32 minor p add mult s s' :
  In p published32 -> consts_of32 minor p = Ok (add, mult) ->
  (s < 2 ^ 32)%N -> (s' < 2 ^ 32)%N ->
  results (lcrng32_next_u16 add mult) 3 s = results (lcrng32_next_u16 add mult) 3 s' -> s = s'.
Proof.
  change (2 ^ 32)%N with 4294967296%N. intros Hp Hc Hs Hs' E.
  assert (Poke : (add, mult) = (0x6073, 0x41C64E6D)%N -> s = s').
  { intros C. injection C as -> ->.
    apply (recover32 _ 0x41C64E6D (-710, 825, -167) (-846, -288, 1214) (-1835, -1393, -1272) 0xEEB9EB65 s s'
             eq_refl eq_refl Hs Hs' E). }
  assert (PokeR : (add, mult) = (0xA3561A1, 0xEEB9EB65)%N -> s = s').
  { intros C. injection C as -> ->.
    apply (recover32 _ 0xEEB9EB65 (-167, 825, -710) (1214, -288, -846) (1272, 1393, 1835) 0x41C64E6D s s'
             eq_refl eq_refl Hs Hs' E). }
  unfold published32 in Hp. cbn [In] in Hp. unfold consts_of32 in Hc.
  repeat (destruct Hp as [<-|Hp]; [cbn [p32_add p32_mult p32_rev PokeRNGMod PokeRNGDiv PokeRNGRMod PokeRNGRDiv ARNG ARNGR XDRNG XDRNGR] in Hc|]).
  - apply Poke. vm_compute in Hc. now inversion Hc.
  - apply Poke. vm_compute in Hc. now inversion Hc.
  - apply PokeR. rewrite consts32_poke_r in Hc. now inversion Hc.
  - apply PokeR. rewrite consts32_poke_r in Hc. now inversion Hc.
  - vm_compute in Hc. injection Hc as <- <-.
    apply (recover32 _ 0x6C078965 (-226, 1186, -72) (-819, 278, 909) (-2045, -439, -2128) 0x9638806D s s'
             eq_refl eq_refl Hs Hs' E).
  - rewrite consts32_arng_r in Hc. injection Hc as <- <-.
    apply (recover32 _ 0x9638806D (72, -1186, 226) (909, 278, -819) (2128, 439, 2045) 0x6C078965 s s'
             eq_refl eq_refl Hs Hs' E).
  - vm_compute in Hc. injection Hc as <- <-.
    apply (recover32 _ 0x343FD (-29, -1236, 729) (1038, 986, 896) (-1074, 749, 1393) 0xB9B33155 s s'
             eq_refl eq_refl Hs Hs' E).
  - rewrite consts32_xd_r in Hc. injection Hc as <- <-.
    apply (recover32 _ 0xB9B33155 (-729, 1236, 29) (-896, -986, -1038) (1393, 749, -1074) 0x343FD s s'
             eq_refl eq_refl Hs Hs' E).
  - destruct Hp.
Qed.

Lemma recover_published64 minor p add mult s s' :
  In p published64 -> consts_of64 minor p = Ok (add, mult) ->
  (s < 2 ^ 64)%N -> (s' < 2 ^ 64)%N ->
  results (lcrng64_next_u32 add mult) 3 s = results (lcrng64_next_u32 add mult) 3 s' -> s = s'.
Proof.
  change (2 ^ 64)%N with 18446744073709551616%N. intros Hp Hc Hs Hs' E.
  unfold published64 in Hp. cbn [In] in Hp. unfold consts_of64 in Hc.
  repeat (destruct Hp as [<-|Hp]; [cbn [p64_add p64_mult p64_rev BWRNG BWRNGR] in Hc|]).
  - vm_compute in Hc. injection Hc as <- <-.
    apply (recover64 _ 0x5D588B656C078965 (809240, 147167, 581685) (45927, 3085823, -324818) (3470630, 737291, -4924741)
             0xDEDCEDAE9638806D s s' eq_refl eq_refl Hs Hs' E).
  - rewrite consts64_bw_r in Hc. injection Hc as <- <-.
    apply (recover64 _ 0xDEDCEDAE9638806D (-581685, -147167, -809240) (324818, -3085823, -45927) (-4924741, 737291, 3470630)
             0x5D588B656C078965 s s' eq_refl eq_refl Hs Hs' E).
  - destruct Hp.
Qed.

(** ** Two outputs of PokeRNG *)
Lemma two_outputs s s' :
  results (lcrng32_next_u16 0x6073 0x41C64E6D) 2 s = results (lcrng32_next_u16 0x6073 0x41C64E6D) 2 s' ->
  exists t, -2 <= t <= 2 /\
    Z.of_N (lcrng32_next 0x6073 0x41C64E6D s) - Z.of_N (lcrng32_next 0x6073 0x41C64E6D s') = 26579 * t.
Proof.
  intros E. unfold results, lcrng32_next_u16 in E. cbv zeta iota beta in E.
  set (f := lcrng32_next 0x6073 0x41C64E6D) in *. destruct (cons2 _ _ _ _ E) as [E1 E2]. clear E.
  apply u16_close in E1; try apply next32_lt. apply u16_close in E2; try apply next32_lt.
  destruct (next_diff 4294967296 f 0x6073 0x41C64E6D (f s) (f s') ltac:(discriminate) (next32_Z _ _)) as [q Q].
  set (d := Z.of_N (f s) - Z.of_N (f s')) in *. set (e := Z.of_N (f (f s)) - Z.of_N (f (f s'))) in *.
  change (Z.of_N 1103515245) with 1103515245 in Q.
  assert (R : 32471 * d - 26579 * e = 0).
  { assert (32471 * d - 26579 * e = 4294967296 * (- 6829 * d - 26579 * q)) by lia. lia. }
  exists (6338 * e - 7743 * d). split; lia.
Qed.

Lemma at_most_three l r : NoDup l ->
  (forall s, In s l -> (s < 2 ^ 32)%N /\ results (lcrng32_next_u16 0x6073 0x41C64E6D) 2 s = r) ->
  (length l <= 3)%nat.
Proof.
  change (2 ^ 32)%N with 4294967296%N. intros D H.
  destruct l as [|a [|b [|c [|d l]]]]; cbn [length]; try lia. exfalso.
  set (f := lcrng32_next 0x6073 0x41C64E6D).
  assert (P : forall x y, In x (a :: b :: c :: d :: l) -> In y (a :: b :: c :: d :: l) -> x <> y ->
    exists t, t <> 0 /\ -2 <= t <= 2 /\ Z.of_N (f x) - Z.of_N (f y) = 26579 * t).
  { intros x y Hx Hy Hn. destruct (H x Hx) as [Lx Rx]. destruct (H y Hy) as [Ly Ry].
    destruct (two_outputs x y) as [t [Ht Et]]; [congruence|]. exists t. split; [|split; assumption].
    intros ->. apply Hn.
    apply (step_injective 4294967296 f 0x6073 0x41C64E6D x y 0xEEB9EB65); try assumption; try lia;
      [exact (next32_Z _ _)|]. unfold f. lia. }
  clear H. inversion D as [|? ? Da D1]; subst. inversion D1 as [|? ? Db D2]; subst.
  inversion D2 as [|? ? Dc D3]; subst. cbn [In] in *.
  destruct (P a b) as [t1 [N1 [B1 E1]]]; [auto|auto|intros ->; apply Da; auto|].
  destruct (P a c) as [t2 [N2 [B2 E2]]]; [auto|auto|intros ->; apply Da; auto|].
  destruct (P a d) as [t3 [N3 [B3 E3]]]; [auto|auto|intros ->; apply Da; auto|].
  destruct (P b c) as [t4 [N4 [B4 E4]]]; [auto|auto|intros ->; apply Db; auto|].
  destruct (P b d) as [t5 [N5 [B5 E5]]]; [auto|auto|intros ->; apply Db; auto|].
  destruct (P c d) as [t6 [N6 [B6 E6]]]; [auto|auto|intros ->; apply Dc; auto|].
  clear P D D1 D2 D3 Da Db Dc.
  assert (t4 = t2 - t1) by lia. assert (t5 = t3 - t1) by lia. assert (t6 = t3 - t2) by lia.
  clear E1 E2 E3 E4 E5 E6. lia.
Qed.
