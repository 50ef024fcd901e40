(** Congruence modulo M on [N], with setoid rewriting. *)
From Coq Require Import NArith ZArith Lia Setoid Morphisms.
From Coq Require Import ZifyNat ZifyN.
Open Scope N_scope.

Definition cong (M a b : N) : Prop := a mod M = b mod M.

#[global] Instance cong_equiv M : Equivalence (cong M).
Proof. split; red; unfold cong; congruence. Qed.

Section Cong.
  Variable M : N.
  Hypothesis HM : M <> 0.

  Lemma cong_add a a' b b' : cong M a a' -> cong M b b' -> cong M (a + b) (a' + b').
  Proof.
    unfold cong. intros Ha Hb.
    rewrite N.add_mod, Ha, Hb, <- N.add_mod by assumption. reflexivity.
  Qed.
  Lemma cong_mul a a' b b' : cong M a a' -> cong M b b' -> cong M (a * b) (a' * b').
  Proof.
    unfold cong. intros Ha Hb.
    rewrite N.mul_mod, Ha, Hb, <- N.mul_mod by assumption. reflexivity.
  Qed.
  Lemma cong_mod a : cong M (a mod M) a.
  Proof. unfold cong. now apply N.mod_mod. Qed.
  Lemma cong_M_l k : cong M (k * M) 0.
  Proof. unfold cong. now rewrite N.mod_mul, N.mod_0_l. Qed.
  Lemma cong_small a b : a < M -> b < M -> cong M a b -> a = b.
  Proof. unfold cong. intros Ha Hb. now rewrite !N.mod_small. Qed.
  Lemma cong_0_divide a : cong M a 0 <-> N.divide M a.
  Proof. unfold cong. rewrite N.mod_0_l by assumption. apply N.mod_divide; assumption. Qed.
  Lemma cong_add_cancel_r a b c : cong M (a + c) (b + c) -> cong M a b.
  Proof.
    intros H.
    assert (Hc : cong M (c + (M - c mod M)) 0).
    { transitivity (c mod M + (M - c mod M)).
      - apply cong_add; [symmetry; apply cong_mod | reflexivity].
      - replace (c mod M + (M - c mod M)) with (1 * M).
        + apply cong_M_l.
        + pose proof (N.mod_lt c M HM). lia. }
    transitivity (a + (c + (M - c mod M))).
    { rewrite <- (N.add_0_r a) at 1. apply cong_add; [reflexivity|now symmetry]. }
    transitivity (b + (c + (M - c mod M))).
    { rewrite !N.add_assoc. apply cong_add; [assumption|reflexivity]. }
    rewrite <- (N.add_0_r b) at 2. apply cong_add; [reflexivity|assumption].
  Qed.
End Cong.

Lemma mod_0_r_N a : a mod 0 = a.
Proof. now destruct a. Qed.

(** Congruence modulo a multiple implies congruence modulo the divisor. *)
Lemma cong_divide M D a b : D <> 0 -> N.divide D M -> cong M a b -> cong D a b.
Proof.
  intros HD [k ->] H. unfold cong in *.
  destruct (N.eq_dec k 0) as [->|Hk].
  - replace (0 * D) with 0 in H by lia. rewrite !mod_0_r_N in H. congruence.
  - pose proof (N.mod_mul_r a D k HD Hk) as Ha. pose proof (N.mod_mul_r b D k HD Hk) as Hb.
    rewrite (N.mul_comm k D) in H. rewrite Ha, Hb in H.
    assert (Ha' : (a mod D + D * ((a / D) mod k)) mod D = a mod D).
    { rewrite (N.mul_comm D), N.mod_add by assumption. now apply N.mod_mod. }
    assert (Hb' : (b mod D + D * ((b / D) mod k)) mod D = b mod D).
    { rewrite (N.mul_comm D), N.mod_add by assumption. now apply N.mod_mod. }
    congruence.
Qed.

(** The congruence lemmas without side condition: modulo 0 is equality. *)
#[global] Instance cong_add_proper M : Proper (cong M ==> cong M ==> cong M) N.add.
Proof.
  intros a a' Ha b b' Hb. destruct (N.eq_dec M 0) as [->|H].
  - unfold cong in *. rewrite !mod_0_r_N in *. congruence.
  - now apply cong_add.
Qed.
#[global] Instance cong_mul_proper M : Proper (cong M ==> cong M ==> cong M) N.mul.
Proof.
  intros a a' Ha b b' Hb. destruct (N.eq_dec M 0) as [->|H].
  - unfold cong in *. rewrite !mod_0_r_N in *. congruence.
  - now apply cong_mul.
Qed.
Lemma cong_mod' M a : cong M (a mod M) a.
Proof.
  destruct (N.eq_dec M 0) as [->|H]; [unfold cong; now rewrite !mod_0_r_N | now apply cong_mod].
Qed.
