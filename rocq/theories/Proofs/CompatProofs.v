(** Both implementations of mod_inv compute the modular inverse. *)
From Coq Require Import NArith ZArith List Lia Znumtheory Zpow_facts Bool.
From Verif Require Import Base.Word Model.Compat.
Open Scope Z_scope.

Lemma size_nat_half (x y : N) : (2 * x < y)%N -> (S (N.size_nat x) <= N.size_nat y)%nat.
Proof.
  intros H.
  assert (forall a : N, N.size_nat a = N.to_nat (N.size a)) as E.
  { intros [|p]; [reflexivity|]. simpl. induction p; simpl; lia. }
  rewrite !E.
  enough (N.succ (N.size x) <= N.size y)%N by lia.
  destruct (N.eq_dec x 0) as [->|Hx].
  - simpl. destruct y; [lia|]. simpl. lia.
  - rewrite !N.size_log2 by lia.
    enough (N.succ (N.log2 x) <= N.log2 y)%N by lia.
    replace (N.succ (N.log2 x)) with (N.log2 (2 * x)) by (apply N.log2_double; lia).
    apply N.log2_le_mono. lia.
Qed.

Lemma gcd_0_pos b : 0 <= b -> b = Z.gcd 0 b.
Proof. intros H. rewrite Z.gcd_0_l. lia. Qed.
Lemma gcd_0_pos_r b : 0 <= b -> b = Z.gcd b 0.
Proof. intros H. rewrite Z.gcd_0_r. lia. Qed.

(** a mod (b mod a) is less than half of a. *)
Lemma mod_mod_half a b : 0 < b -> 2 * (a mod b) < a \/ a < b \/ a <= 0.
Proof.
  intros Hb. pose proof (Z.mod_pos_bound a b Hb). pose proof (Z.div_mod a b ltac:(lia)).
  destruct (Z.lt_ge_cases a b); [auto|].
  destruct (Z.le_gt_cases a 0); [auto|].
  left. assert (1 <= a / b) by (apply Z.div_le_lower_bound; lia). nia.
Qed.

Lemma extended_gcd_ok n : forall fuel a b, 0 <= a -> 0 <= b ->
  (N.size_nat (Z.to_N a) <= n)%nat -> (2 * n + 1 <= fuel)%nat ->
  exists g x y, extended_gcd fuel a b = Some (g, x, y) /\ g = Z.gcd a b /\ a * x + b * y = g.
Proof.
  induction n as [|n IH]; intros fuel a b Ha Hb Hs Hf.
  - destruct fuel; [lia|]. assert (a = 0) as ->.
    { destruct a; try lia. exfalso. simpl in Hs. destruct p; simpl in Hs; lia. }
    cbn [extended_gcd]. rewrite Z.eqb_refl. exists b, 0, 1. repeat split; [|ring]. now apply gcd_0_pos.
  - destruct fuel as [|[|fuel]]; [lia|lia|].
    remember (S fuel) as f1. cbn [extended_gcd].
    destruct (Z.eqb_spec a 0) as [->|Hane].
    { exists b, 0, 1. repeat split; [|ring]. now apply gcd_0_pos. }
    assert (Hsub : exists g y x, extended_gcd f1 (b mod a) a = Some (g, y, x) /\
                     g = Z.gcd (b mod a) a /\ (b mod a) * y + a * x = g).
    { subst f1. cbn [extended_gcd].
      pose proof (Z.mod_pos_bound b a ltac:(lia)) as Hm.
      destruct (Z.eqb_spec (b mod a) 0) as [E|E].
      - rewrite E. exists a, 0, 1. repeat split; [|ring]. now apply gcd_0_pos.
      - destruct (IH fuel (a mod (b mod a)) (b mod a)) as (g & x & y & H1 & H2 & H3).
        + apply Z.mod_pos_bound; lia.
        + lia.
        + assert (2 * (a mod (b mod a)) < a) as Hh.
          { destruct (mod_mod_half a (b mod a)) as [?|[?|?]]; lia. }
          pose proof (Z.mod_pos_bound a (b mod a) ltac:(lia)).
          assert (S (N.size_nat (Z.to_N (a mod (b mod a)))) <= N.size_nat (Z.to_N a))%nat.
          { apply size_nat_half. lia. }
          lia.
        + lia.
        + rewrite H1. eexists _, _, _. split; [reflexivity|]. split.
          * rewrite H2. rewrite Z.gcd_mod by lia. reflexivity.
          * rewrite <- H3. pose proof (Z.div_mod a (b mod a) ltac:(lia)). nia. }
    destruct Hsub as (g & y & x & H1 & H2 & H3). rewrite H1.
    eexists _, _, _. split; [reflexivity|]. split.
    + rewrite H2, Z.gcd_mod by lia. reflexivity.
    + rewrite <- H3. pose proof (Z.div_mod b a ltac:(lia)). nia.
Qed.

Lemma mod_inv_py37_ok v m : 0 <= v -> 0 < m ->
  (Z.gcd v m = 1 -> exists r, mod_inv_py37 v m = Ok r /\ 0 <= r < m /\ (v * r) mod m = 1 mod m) /\
  (Z.gcd v m <> 1 -> mod_inv_py37 v m = Raise ValueError).
Proof.
  intros Hv Hm. unfold mod_inv_py37, gcd_fuel.
  destruct (extended_gcd_ok (N.size_nat (Z.to_N v))
              (2 * N.size_nat (Z.to_N v) + 2) v m) as (g & x & y & H1 & H2 & H3); try lia.
  rewrite H1. destruct (Z.eqb_spec g 1) as [E|E].
  - split; [|congruence]. intros _. eexists; split; [reflexivity|]. split.
    + now apply Z.mod_pos_bound.
    + rewrite Zmult_mod_idemp_r. replace (v * x) with (1 + (- y) * m) by lia.
      apply Z.mod_add. lia.
  - split; congruence.
Qed.

Lemma long_invmod_ok k : forall fuel a n b c v m, 0 <= a -> 0 <= n ->
  (N.size_nat (Z.to_N n) <= k)%nat -> (2 * k <= fuel)%nat -> 0 < m ->
  (m | a - b * v) -> (m | n - c * v) ->
  exists g x, long_invmod_loop fuel a n b c = Some (g, x) /\ g = Z.gcd a n /\ (m | g - x * v).
Proof.
  induction k as [|k IH]; intros fuel a n b c v m Ha Hn Hs Hf Hm Hb Hc.
  - assert (n = 0) as ->.
    { destruct n; try lia. exfalso. simpl in Hs. destruct p; simpl in Hs; lia. }
    destruct fuel; simpl; exists a, b; (split; [reflexivity|]); (split; [now apply gcd_0_pos_r|assumption]).
  - destruct (Z.eqb_spec n 0) as [->|Hne].
    { destruct fuel; simpl; exists a, b; (split; [reflexivity|]); (split; [now apply gcd_0_pos_r|assumption]). }
    destruct fuel as [|[|fuel]]; [lia|lia|].
    assert (Hstep : forall a n b c, n <> 0 -> (m | a - b * v) -> (m | n - c * v) ->
              (m | a mod n - (b - a / n * c) * v)).
    { clear - Hm. intros a n b c Hn [p Hp] [q Hq].
      exists (p - a / n * q). pose proof (Z.div_mod a n Hn). nia. }
    cbn [long_invmod_loop]. destruct (Z.eqb_spec n 0); [lia|].
    pose proof (Z.mod_pos_bound a n ltac:(lia)) as Hmod.
    destruct (Z.eqb_spec (a mod n) 0) as [E|E].
    { exists n, c. split; [reflexivity|]. split; [|assumption].
      rewrite Z.gcd_comm, <- Z.gcd_mod by lia. rewrite E. apply gcd_0_pos; lia. }
    destruct (IH fuel (a mod n) (n mod (a mod n)) (b - a / n * c)
                (c - n / (a mod n) * (b - a / n * c)) v m) as (g & x & H1 & H2 & H3);
      try lia; auto.
    + apply Z.mod_pos_bound. lia.
    + assert (2 * (n mod (a mod n)) < n) as Hh.
      { destruct (mod_mod_half n (a mod n)) as [?|[?|?]]; lia. }
      pose proof (Z.mod_pos_bound n (a mod n) ltac:(lia)).
      assert (S (N.size_nat (Z.to_N (n mod (a mod n)))) <= N.size_nat (Z.to_N n))%nat.
      { apply size_nat_half. lia. }
      lia.
    + exists g, x. split; [assumption|]. split; [|assumption].
      rewrite H2. rewrite (Z.gcd_comm (a mod n)), Z.gcd_mod by lia.
      rewrite Z.gcd_mod by lia. apply Z.gcd_comm.
Qed.

Lemma mod_inv_py38_ok v m : 0 <= v -> 0 < m ->
  (Z.gcd v m = 1 -> exists r, mod_inv_py38 v m = Ok r /\ 0 <= r < m /\ (v * r) mod m = 1 mod m) /\
  (Z.gcd v m <> 1 -> mod_inv_py38 v m = Raise ValueError).
Proof.
  intros Hv Hm. unfold mod_inv_py38, gcd_fuel.
  destruct (long_invmod_ok (N.size_nat (Z.to_N m))
              (2 * N.size_nat (Z.to_N m) + 2) v m 1 0 v m) as (g & x & H1 & H2 & H3); try lia.
  - exists 0. ring.
  - exists 1. ring.
  - rewrite H1. destruct (Z.eqb_spec g 1) as [E|E].
    + split; [|congruence]. intros _. eexists; split; [reflexivity|]. split.
      * now apply Z.mod_pos_bound.
      * rewrite Zmult_mod_idemp_r. destruct H3 as [q Hq].
        replace (v * x) with (1 + (- q) * m) by lia. apply Z.mod_add. lia.
    + split; congruence.
Qed.

Lemma mod_inv_ok minor v m : 0 <= v -> 0 < m ->
  (Z.gcd v m = 1 -> exists r, mod_inv minor v m = Ok r /\ 0 <= r < m /\ (v * r) mod m = 1 mod m) /\
  (Z.gcd v m <> 1 -> mod_inv minor v m = Raise ValueError).
Proof.
  unfold mod_inv. destruct (minor <? 8)%N; [apply mod_inv_py37_ok|apply mod_inv_py38_ok].
Qed.

(** The inverse is unique. *)
Lemma inverse_unique v m r s : 0 < m -> 0 <= r < m -> 0 <= s < m ->
  (v * r) mod m = 1 mod m -> (v * s) mod m = 1 mod m -> r = s.
Proof.
  intros Hm Hr Hs H1 H2.
  assert (E : (r * (v * s)) mod m = (s * (v * r)) mod m) by (f_equal; ring).
  rewrite Z.mul_mod, H2, <- Z.mul_mod in E by lia.
  rewrite (Z.mul_mod s), H1, <- Z.mul_mod in E by lia.
  rewrite !Z.mul_1_r, !Z.mod_small in E by lia. assumption.
Qed.

Lemma mod_inv_versions_agree v m minor1 minor2 : 0 <= v -> 0 < m ->
  mod_inv minor1 v m = mod_inv minor2 v m.
Proof.
  intros Hv Hm.
  destruct (mod_inv_ok minor1 v m Hv Hm) as [A1 B1].
  destruct (mod_inv_ok minor2 v m Hv Hm) as [A2 B2].
  destruct (Z.eq_dec (Z.gcd v m) 1) as [E|E].
  - destruct (A1 E) as (r & -> & Hr & E1). destruct (A2 E) as (s & -> & Hs & E2).
    f_equal. now apply (inverse_unique v m).
  - now rewrite B1, B2.
Qed.

(** Coprimality with a power of two is oddness. *)
Lemma gcd_pow2_odd (v k : Z) : 0 <= k -> Z.odd v = true -> Z.gcd v (2 ^ k) = 1.
Proof.
  intros Hk Ho. apply Zgcd_1_rel_prime. apply rel_prime_Zpower_r; [assumption|].
  apply rel_prime_sym. apply prime_rel_prime; [apply prime_2|].
  intros [q ->]. rewrite Z.odd_mul in Ho. simpl in Ho. now rewrite andb_comm in Ho.
Qed.
Lemma gcd_pow2_even (v k : Z) : 0 < k -> Z.odd v = false -> Z.gcd v (2 ^ k) <> 1.
Proof.
  intros Hk Ho H.
  assert (D : (2 | Z.gcd v (2 ^ k))).
  { apply Z.gcd_greatest.
    - exists (v / 2). rewrite (Zdiv2_odd_eqn v) at 1. rewrite Ho, Z.div2_div. lia.
    - exists (2 ^ (k - 1)). replace k with (Z.succ (k - 1)) at 1 by lia. rewrite Z.pow_succ_r by lia. ring. }
  rewrite H in D. destruct D as [q Hq]. lia.
Qed.
