From Coq Require Import NArith List Ascii String Bool Lia.
From Coq Require Import ZifyBool ZifyNat ZifyN.
From Verif Require Import Base.Word Base.WordLemmas Model.Util Spec.UtilSpec Proofs.GF2.
Import ListNotations.
Open Scope N_scope.
Ltac Zify.zify_post_hook ::= idtac.

(** ** byte order: the swap is linear, so it is determined by the 32 single bits *)
Definition endian1 (v : N) : N := N.lxor (N.land (shl32 v 8) 0xFF00FF00) (N.land (N.shiftr v 8) 0xFF00FF).
Definition endian2 (v : N) : N := N.lxor (shl32 v 16) (N.shiftr v 16).
Lemma lor_lxor_disj a b : N.land a b = 0 -> N.lor a b = N.lxor a b.
Proof. intros H. symmetry. now apply N.lxor_lor. Qed.
Lemma endian_split v : v < 2^32 -> change_endian_u32 v = endian2 (endian1 v).
Proof.
  intros Hv. unfold change_endian_u32. rewrite (w32_small v) by exact Hv. cbv zeta.
  assert (E1 : N.lor (N.land (shl32 v 8) 0xFF00FF00) (N.land (N.shiftr v 8) 0xFF00FF) = endian1 v).
  { apply lor_lxor_disj. apply N.bits_inj; intro n. rewrite !N.land_spec, N.bits_0.
    assert (D : N.testbit 0xFF00FF00 n && N.testbit 0xFF00FF n = false).
    { rewrite <- N.land_spec. change (N.land 0xFF00FF00 0xFF00FF) with 0. apply N.bits_0. }
    destruct (N.testbit 0xFF00FF00 n), (N.testbit 0xFF00FF n); try discriminate; now rewrite ?andb_false_r, ?andb_false_l. }
  rewrite E1. set (u := endian1 v).
  assert (Hu : u < 2^32).
  { unfold u, endian1. apply (lxor_lt _ _ 32); apply land_lt_r; reflexivity. }
  clearbody u. unfold endian2.
  rewrite lor_lxor_disj.
  - apply w32_small. apply (lxor_lt _ _ 32); [apply w32_lt|now apply shiftr_lt].
  - apply N.bits_inj; intro n. unfold shl32. rewrite N.land_spec, w32_bits, shiftl_bits, shiftr_bits, N.bits_0.
    destruct (N.leb_spec 16 n); [|now rewrite andb_false_r].
    rewrite (testbit_small32 u (n + 16)) by (exact Hu || lia). apply andb_false_r.
Qed.
Definition shl32_linear k : linear (fun v => shl32 v k) :=
  linear_comp (fun a => a mod 2^32) (fun a => N.shiftl a k) (linear_mod_pow2 32) (linear_shiftl k).
Lemma endian_linear : linear (fun v => endian2 (endian1 v)).
Proof.
  apply (linear_comp endian2 endian1).
  - apply (linear_lxor (fun v => shl32 v 16)); [apply shl32_linear|apply linear_shiftr].
  - apply (linear_lxor (fun v => N.land (shl32 v 8) 0xFF00FF00)).
    + apply (linear_comp (fun a => N.land a 0xFF00FF00)); [apply linear_land|apply shl32_linear].
    + apply (linear_comp (fun a => N.land a 0xFF00FF)); [apply linear_land|apply linear_shiftr].
Qed.

Lemma linear_ext n f g : linear f -> linear g -> mat n f = mat n g -> forall x, x < 2 ^ N.of_nat n -> f x = g x.
Proof. intros Hf Hg E x Hx. rewrite <- (mat_app_gen n f x Hf Hx), E. now apply mat_app_gen. Qed.

Definition byte (j : N) (v : N) : N := (v / 2^(8 * j)) mod 2^8.
Lemma byte_linear j : linear (byte j).
Proof.
  apply (linear_comp (fun a => a mod 2^8) (fun a => a / 2^(8*j))); [apply linear_mod_pow2|].
  intros x y. rewrite <- !N.shiftr_div_pow2. apply linear_shiftr.
Qed.
Lemma endian_byte v j : v < 2^32 -> j <= 3 -> byte j (change_endian_u32 v) = byte (3 - j) v.
Proof.
  intros Hv Hj. rewrite endian_split by exact Hv.
  assert (j = 0 \/ j = 1 \/ j = 2 \/ j = 3) as Hc by lia.
  apply (linear_ext 32 (fun v => byte j (endian2 (endian1 v))) (byte (3 - j))).
  - apply (linear_comp (byte j)); [apply byte_linear|apply endian_linear].
  - apply byte_linear.
  - destruct Hc as [->|[->|[->| ->]]]; now vm_compute.
  - exact Hv.
Qed.
Lemma endian_lt v : change_endian_u32 v < 2^32.
Proof. apply w32_lt. Qed.
Lemma endian_twice v : v < 2^32 -> change_endian_u32 (change_endian_u32 v) = v.
Proof.
  intros Hv. rewrite (endian_split (change_endian_u32 v)) by apply endian_lt.
  rewrite endian_split by exact Hv.
  apply (linear_ext 32 (fun v => endian2 (endian1 (endian2 (endian1 v)))) (fun v => v)).
  - apply (linear_comp (fun v => endian2 (endian1 v)) (fun v => endian2 (endian1 v))); apply endian_linear.
  - apply linear_id.
  - now vm_compute.
  - exact Hv.
Qed.

(** ** rotations *)
Lemma lt_bits_inj w a b : a < 2^w -> b < 2^w -> (forall i, i < w -> N.testbit a i = N.testbit b i) -> a = b.
Proof.
  intros Ha Hb H. apply N.bits_inj; intro n. destruct (N.lt_ge_cases n w) as [L|L]; [now apply H|].
  now rewrite (bits_above_lt a w n), (bits_above_lt b w n).
Qed.
(** Position arithmetic modulo w, for counts up to w. *)
Definition up (w i k : N) : N := (i + k) mod w.
Lemma up_cases w i k : i < w -> k <= w ->
  (i + k < w /\ up w i k = i + k) \/ (w <= i + k /\ up w i k = i + k - w).
Proof.
  intros Hi Hk. unfold up. destruct (N.lt_ge_cases (i + k) w) as [L|L]; [left|right]; split; try exact L.
  - now apply N.mod_small.
  - replace (i + k) with (i + k - w + 1 * w) at 1 by lia. rewrite N.mod_add by lia.
    destruct (N.lt_ge_cases (i + k - w) w) as [L2|L2]; [now apply N.mod_small|].
    lia.
Qed.
Lemma rotated_unique w v k r r' : 0 < w -> k <= w -> rotated w v k r -> rotated w v k r' -> r = r'.
Proof.
  intros Hw Hk [H1 H2] [H1' H2']. apply (lt_bits_inj w); [exact H1|exact H1'|].
  intros i Hi.
  assert (exists j, j < w /\ (j + k) mod w = i) as (j & Hj & <-).
  { destruct (N.lt_ge_cases i k) as [L|L].
    - exists (i + w - k). split; [lia|]. replace (i + w - k + k) with (i + 1 * w) by lia.
      rewrite N.mod_add by lia. now apply N.mod_small.
    - exists (i - k). split; [lia|]. replace (i - k + k) with i by lia. now apply N.mod_small. }
  now rewrite H2, H2'.
Qed.

(** The two shift patterns. *)
Lemma rotl_pattern w v c : 0 < w -> v < 2^w -> c <= w ->
  rotated w v c (N.lor (N.shiftl v c) (N.shiftr v (w - c)) mod 2^w).
Proof.
  intros Hw Hv Hc. split; [apply N.mod_lt, N.pow_nonzero; discriminate|].
  intros i Hi. destruct (up_cases w i c Hi Hc) as [[L E]|[L E]]; unfold up in E; rewrite E.
  - rewrite N.mod_pow2_bits_low by exact L. rewrite N.lor_spec, shiftl_bits, shiftr_bits.
    destruct (N.leb_spec c (i + c)); [|lia]. rewrite N.add_sub. cbn [andb].
    rewrite (bits_above_lt v w (i + c + (w - c))) by (exact Hv || lia). apply orb_false_r.
  - rewrite N.mod_pow2_bits_low by lia. rewrite N.lor_spec, shiftl_bits, shiftr_bits.
    replace (i + c - w + (w - c)) with i by lia.
    destruct (N.leb_spec c (i + c - w)) as [L2|L2]; [|reflexivity].
    replace i with (i + c - w - c + w - c + c) by lia. lia.
Qed.
Lemma rotr_pattern w v c : 0 < w -> v < 2^w -> c <= w ->
  rotated w v (w - c) (N.lor (N.shiftl v (w - c)) (N.shiftr v c) mod 2^w).
Proof.
  intros Hw Hv Hc. pose proof (rotl_pattern w v (w - c) Hw Hv ltac:(lia)) as H.
  replace (w - (w - c)) with c in H by lia. exact H.
Qed.

Lemma sub8_small w c : w < 256 -> c <= w -> sub8 w (w8 c) = w - c.
Proof.
  intros Hw Hc. rewrite (w8_small c) by lia. unfold sub8. rewrite (w8_small c) by lia. unfold w8.
  replace (w + (256 - c)) with (w - c + 1 * 256) by lia. rewrite N.mod_add by discriminate.
  apply N.mod_small. lia.
Qed.
Lemma sub64_small w c : w <= 64 -> c <= w -> sub64 w (w8 c) = w - c.
Proof.
  intros Hw Hc. rewrite (w8_small c) by lia. unfold sub64. rewrite (w64_small c) by lia. unfold w64.
  replace (w + (18446744073709551616 - c)) with (w - c + 1 * 18446744073709551616) by lia.
  rewrite N.mod_add by discriminate. apply N.mod_small. lia.
Qed.

Lemma rotate_ok m raw w v c : w <= 64 -> 0 < w -> rot_count_ok m w c ->
  (m = Numba -> w = 64 \/ w < 64) ->
  rotate m raw w v c = Ok (raw v c (w - c)).
Proof.
  intros Hw H0 Hc _. assert (Hcw : c <= w).
  { destruct m; unfold rot_count_ok in Hc; [exact Hc|]. destruct (N.eqb_spec w 64); lia. }
  unfold rotate. rewrite (w8_small c) by lia. destruct m.
  - rewrite <- (w8_small c) at 2 by lia. rewrite sub8_small by lia. reflexivity.
  - rewrite <- (w8_small c) at 2 by lia. rewrite sub64_small by lia.
    rewrite <- (w8_small c) at 4 by lia. rewrite sub64_small by lia.
    unfold rot_count_ok in Hc.
    assert ((64 <=? c) || (64 <=? w - c) = false) as ->; [|reflexivity].
    apply orb_false_iff. rewrite !N.leb_gt. destruct (N.eqb_spec w 64); lia.
Qed.

Lemma rotate_left_u32_ok m v c : v < 2^32 -> rot_count_ok m 32 c ->
  exists r, rotate_left_u32 m v c = Ok r /\ rotated 32 v c r.
Proof.
  intros Hv Hc. unfold rotate_left_u32. rewrite (w32_small v) by exact Hv.
  rewrite rotate_ok by (assumption || lia). eexists. split; [reflexivity|].
  apply (rotl_pattern 32); [lia|exact Hv|]. destruct m; exact Hc.
Qed.
Lemma rotate_right_u32_ok m v c : v < 2^32 -> rot_count_ok m 32 c ->
  exists r, rotate_right_u32 m v c = Ok r /\ rotated 32 v (32 - c) r.
Proof.
  intros Hv Hc. unfold rotate_right_u32. rewrite (w32_small v) by exact Hv.
  rewrite rotate_ok by (assumption || lia). eexists. split; [reflexivity|].
  apply (rotr_pattern 32); [lia|exact Hv|]. destruct m; exact Hc.
Qed.
Lemma count64_le m c : rot_count_ok m 64 c -> c <= 64.
Proof. destruct m; cbn; lia. Qed.
Lemma rotate_left_u64_ok m v c : v < 2^64 -> rot_count_ok m 64 c ->
  exists r, rotate_left_u64 m v c = Ok r /\ rotated 64 v c r.
Proof.
  intros Hv Hc. unfold rotate_left_u64. rewrite (w64_small v) by exact Hv.
  rewrite rotate_ok by (assumption || lia). eexists. split; [reflexivity|].
  apply (rotl_pattern 64); [lia|exact Hv|]. exact (count64_le m c Hc).
Qed.
Lemma rotate_right_u64_ok m v c : v < 2^64 -> rot_count_ok m 64 c ->
  exists r, rotate_right_u64 m v c = Ok r /\ rotated 64 v (64 - c) r.
Proof.
  intros Hv Hc. unfold rotate_right_u64. rewrite (w64_small v) by exact Hv.
  rewrite rotate_ok by (assumption || lia). eexists. split; [reflexivity|].
  apply (rotr_pattern 64); [lia|exact Hv|]. exact (count64_le m c Hc).
Qed.

(** Rotations compose. *)
Lemma rotated_compose w v a b r s : 0 < w -> rotated w v a r -> rotated w r b s -> rotated w v ((a + b) mod w) s.
Proof.
  intros Hw [H1 H2] [K1 K2]. split; [exact K1|]. intros i Hi.
  rewrite N.add_mod_idemp_r by lia. rewrite <- (H2 i Hi).
  rewrite <- (K2 ((i + a) mod w)) by (apply N.mod_lt; lia).
  f_equal. rewrite N.add_mod_idemp_l by lia. f_equal. lia.
Qed.
Lemma rotated_zero w v k r : 0 < w -> v < 2^w -> k = 0 \/ k = w -> rotated w v k r -> r = v.
Proof.
  intros Hw Hv Hk H. apply (rotated_unique w v k r v Hw); [lia|exact H|]. split; [exact Hv|].
  intros i Hi. f_equal. destruct Hk as [->| ->].
  - rewrite N.add_0_r. now apply N.mod_small.
  - replace (i + w) with (i + 1 * w) by lia. rewrite N.mod_add by lia. now apply N.mod_small.
Qed.
Lemma add_sub_mod w c : 0 < w -> c <= w -> (c + (w - c)) mod w = 0 /\ (w - c + c) mod w = 0.
Proof.
  intros Hw Hc. replace (c + (w - c)) with w by lia. replace (w - c + c) with w by lia.
  now rewrite N.mod_same by lia.
Qed.

(** ** hex *)
Lemma hex_lookup_ok i : i < 256 -> exists s,
  nth_error HEX_LOOKUP (N.to_nat i) = Some s /\ String.length s = 2%nat /\
  (forall acc t, hex_value_from acc (append s t) = hex_value_from (256 * acc + i) t).
Proof.
  intros Hi.
  assert (H : forallb (fun i => match nth_error HEX_LOOKUP i with
              | Some (String a (String b EmptyString)) =>
                  match hex_digit a, hex_digit b with
                  | Some x, Some y => 16 * x + y =? N.of_nat i
                  | _, _ => false
                  end
              | _ => false end) (seq 0 256) = true) by now vm_compute.
  rewrite forallb_forall in H. specialize (H (N.to_nat i)).
  destruct (nth_error HEX_LOOKUP (N.to_nat i)) as [s|]; [|discriminate H; apply in_seq; lia].
  destruct s as [|a [|b [|? ?]]]; try (discriminate H; apply in_seq; lia).
  destruct (hex_digit a) as [x|] eqn:Ea; [|discriminate H; apply in_seq; lia].
  destruct (hex_digit b) as [y|] eqn:Eb; [|discriminate H; apply in_seq; lia].
  assert (E : 16 * x + y = i).
  { assert (In (N.to_nat i) (seq 0 256)) as Hin by (apply in_seq; lia). apply H, N.eqb_eq in Hin. lia. }
  eexists. split; [reflexivity|]. split; [reflexivity|]. intros acc t. cbn [append hex_value_from].
  rewrite Ea, Eb. f_equal. lia.
Qed.
Lemma hex_lookup_none i : 256 <= i -> nth_error HEX_LOOKUP (N.to_nat i) = None.
Proof. intros H. apply nth_error_None. change (Datatypes.length HEX_LOOKUP) with 256%nat. lia. Qed.

Lemma append_length a b : String.length (append a b) = (String.length a + String.length b)%nat.
Proof. induction a; cbn; congruence. Qed.
Lemma append_assoc a b c : append (append a b) c = append a (append b c).
Proof. induction a; cbn; congruence. Qed.
Lemma append_nil a : append a EmptyString = a.
Proof. induction a; cbn; congruence. Qed.

Lemma hex_32_ok m num : num < 2^32 ->
  exists s, hex_32 m num = Ok s /\ String.length s = 8%nat /\ hex_value s = Some num.
Proof.
  intros Hn. unfold hex_32.
  assert ((match m with NumPy => num | Numba => w32 num end) = num) as ->.
  { destruct m; [reflexivity|now apply w32_small]. }
  cbv zeta. change 0xFF with (N.ones 8). rewrite !N.land_ones, !N.shiftr_div_pow2.
  set (a := num / 2^24). set (b := num / 2^16 mod 2^8). set (c := num / 2^8 mod 2^8). set (d := num mod 2^8).
  assert (Ha : a < 256) by (apply N.div_lt_upper_bound; [discriminate|exact Hn]).
  assert (Hb : b < 256) by (apply N.mod_lt; discriminate).
  assert (Hc : c < 256) by (apply N.mod_lt; discriminate).
  assert (Hd : d < 256) by (apply N.mod_lt; discriminate).
  assert (E : num = 256 * (256 * (256 * a + b) + c) + d).
  { unfold a, b, c, d. change (2^24) with (256 * 256 * 256). change (2^16) with (256 * 256). change (2^8) with 256.
    rewrite <- !N.div_div by discriminate.
    set (q1 := num / 256). set (q2 := q1 / 256). 
    rewrite <- (N.div_mod q2 256) by discriminate. unfold q2.
    rewrite <- (N.div_mod q1 256) by discriminate. unfold q1.
    now rewrite <- (N.div_mod num 256) by discriminate. }
  destruct (hex_lookup_ok a Ha) as (sa & Na & La & Va). destruct (hex_lookup_ok b Hb) as (sb & Nb & Lb & Vb).
  destruct (hex_lookup_ok c Hc) as (sc & Nc & Lc & Vc). destruct (hex_lookup_ok d Hd) as (sd & Nd & Ld & Vd).
  rewrite Na, Nb, Nc, Nd. cbn [rbind]. eexists. split; [reflexivity|]. split.
  - rewrite !append_length, La, Lb, Lc, Ld. reflexivity.
  - rewrite !append_assoc. unfold hex_value. rewrite Va, Vb, Vc.
    rewrite <- (append_nil sd), Vd. cbn [hex_value_from]. f_equal. rewrite E at 1. lia.
Qed.

Lemma rot_inverse m v c w rl rr :
  0 < w -> (forall m v c, v < 2^w -> rot_count_ok m w c -> exists r, rl m v c = Ok r /\ rotated w v c r) ->
  (forall m v c, v < 2^w -> rot_count_ok m w c -> exists r, rr m v c = Ok r /\ rotated w v (w - c) r) ->
  v < 2^w -> rot_count_ok m w c -> c <= w ->
  rbind (rl m v c) (fun r => rr m r c) = Ok v /\ rbind (rr m v c) (fun r => rl m r c) = Ok v.
Proof.
  intros Hw HL HR Hv Hc Hcw. split.
  - destruct (HL m v c Hv Hc) as (r & -> & R). cbn [rbind]. destruct (HR m r c (proj1 R) Hc) as (s & -> & S).
    f_equal. pose proof (rotated_compose w v c (w - c) r s Hw R S) as K.
    rewrite (proj1 (add_sub_mod w c Hw Hcw)) in K. exact (rotated_zero w v 0 s Hw Hv (or_introl eq_refl) K).
  - destruct (HR m v c Hv Hc) as (r & -> & R). cbn [rbind]. destruct (HL m r c (proj1 R) Hc) as (s & -> & S).
    f_equal. pose proof (rotated_compose w v (w - c) c r s Hw R S) as K.
    rewrite (proj2 (add_sub_mod w c Hw Hcw)) in K. exact (rotated_zero w v 0 s Hw Hv (or_introl eq_refl) K).
Qed.
Lemma rot_add m v a b w rl :
  0 < w -> (forall m v c, v < 2^w -> rot_count_ok m w c -> exists r, rl m v c = Ok r /\ rotated w v c r) ->
  v < 2^w -> rot_count_ok m w a -> rot_count_ok m w b -> rot_count_ok m w ((a + b) mod w) ->
  rbind (rl m v a) (fun r => rl m r b) = rl m v ((a + b) mod w).
Proof.
  intros Hw HL Hv Ha Hb Hab. destruct (HL m v a Hv Ha) as (r & -> & R). cbn [rbind].
  destruct (HL m r b (proj1 R) Hb) as (s & -> & S). destruct (HL m v _ Hv Hab) as (t & -> & T).
  f_equal. apply (rotated_unique w v ((a + b) mod w)); [exact Hw| |exact (rotated_compose w v a b r s Hw R S)|exact T].
  apply N.lt_le_incl, N.mod_lt. lia.
Qed.
Lemma count32_le m c : rot_count_ok m 32 c -> c <= 32.
Proof. destruct m; cbn; lia. Qed.

Lemma rotations_32 m v c : v < 2^32 -> rot_count_ok m 32 c ->
  (exists r, rotate_left_u32 m v c = Ok r /\ rotated 32 v c r) /\
  (exists r, rotate_right_u32 m v c = Ok r /\ rotated 32 v (32 - c) r) /\
  rbind (rotate_left_u32 m v c) (fun r => rotate_right_u32 m r c) = Ok v /\
  rbind (rotate_right_u32 m v c) (fun r => rotate_left_u32 m r c) = Ok v.
Proof.
  intros Hv Hc. split; [now apply rotate_left_u32_ok|]. split; [now apply rotate_right_u32_ok|].
  apply (rot_inverse m v c 32); auto; [lia|exact rotate_left_u32_ok|exact rotate_right_u32_ok|exact (count32_le m c Hc)].
Qed.
Lemma rotations_64 m v c : v < 2^64 -> rot_count_ok m 64 c ->
  (exists r, rotate_left_u64 m v c = Ok r /\ rotated 64 v c r) /\
  (exists r, rotate_right_u64 m v c = Ok r /\ rotated 64 v (64 - c) r) /\
  rbind (rotate_left_u64 m v c) (fun r => rotate_right_u64 m r c) = Ok v /\
  rbind (rotate_right_u64 m v c) (fun r => rotate_left_u64 m r c) = Ok v.
Proof.
  intros Hv Hc. split; [now apply rotate_left_u64_ok|]. split; [now apply rotate_right_u64_ok|].
  apply (rot_inverse m v c 64); auto; [lia|exact rotate_left_u64_ok|exact rotate_right_u64_ok|exact (count64_le m c Hc)].
Qed.
Lemma rotations_add_32 m v a b : v < 2^32 -> rot_count_ok m 32 a -> rot_count_ok m 32 b ->
  rbind (rotate_left_u32 m v a) (fun r => rotate_left_u32 m r b) = rotate_left_u32 m v ((a + b) mod 32).
Proof.
  intros Hv Ha Hb. apply (rot_add m v a b 32); auto; [lia|exact rotate_left_u32_ok|].
  pose proof (N.mod_lt (a + b) 32 ltac:(discriminate)). destruct m; cbn; lia.
Qed.
(** Under numba the sum must not be 0 modulo 64. *)
Lemma rotations_add_64 m v a b : v < 2^64 -> rot_count_ok m 64 a -> rot_count_ok m 64 b ->
  rot_count_ok m 64 ((a + b) mod 64) ->
  rbind (rotate_left_u64 m v a) (fun r => rotate_left_u64 m r b) = rotate_left_u64 m v ((a + b) mod 64).
Proof. intros Hv Ha Hb Hab. apply (rot_add m v a b 64); auto; [lia|exact rotate_left_u64_ok]. Qed.
Lemma rotations_identity v : v < 2^32 -> forall c, c = 0 \/ c = 32 ->
  (forall m, rotate_left_u32 m v c = Ok v /\ rotate_right_u32 m v c = Ok v).
Proof.
  intros Hv c Hc m. assert (K : rot_count_ok m 32 c) by (destruct m; cbn; lia).
  destruct (rotations_32 m v c Hv K) as ((r & -> & R) & (s & -> & S) & _).
  rewrite (rotated_zero 32 v c r ltac:(lia) Hv ltac:(lia) R).
  now rewrite (rotated_zero 32 v (32 - c) s ltac:(lia) Hv ltac:(lia) S).
Qed.
Lemma rotations_identity_64 v : v < 2^64 -> forall c, c = 0 \/ c = 64 ->
  rotate_left_u64 NumPy v c = Ok v /\ rotate_right_u64 NumPy v c = Ok v /\
  rotate_left_u64 Numba v c = Raise UndefinedShift /\ rotate_right_u64 Numba v c = Raise UndefinedShift.
Proof.
  intros Hv c Hc. assert (K : rot_count_ok NumPy 64 c) by (cbn; lia).
  destruct (rotations_64 NumPy v c Hv K) as ((r & -> & R) & (s & -> & S) & _).
  rewrite (rotated_zero 64 v c r ltac:(lia) Hv ltac:(lia) R).
  rewrite (rotated_zero 64 v (64 - c) s ltac:(lia) Hv ltac:(lia) S).
  split; [reflexivity|]. split; [reflexivity|]. destruct Hc as [->| ->]; split; reflexivity.
Qed.

Lemma hex_32_big num : 2^32 <= num -> hex_32 NumPy num = Raise IndexError.
Proof.
  intros Hn. unfold hex_32. cbv zeta. rewrite hex_lookup_none; [reflexivity|].
  rewrite N.shiftr_div_pow2. apply N.div_le_lower_bound; [discriminate|exact Hn].
Qed.
Lemma hex_32_inj m a b : a < 2^32 -> b < 2^32 -> hex_32 m a = hex_32 m b -> a = b.
Proof.
  intros Ha Hb E. destruct (hex_32_ok m a Ha) as (s & Es & _ & Vs). destruct (hex_32_ok m b Hb) as (t & Et & _ & Vt).
  rewrite Es, Et in E. injection E as ->. rewrite Vs in Vt. now injection Vt.
Qed.
