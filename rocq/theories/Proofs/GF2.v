(** Linear maps over GF(2) on words, as lists of columns. *)
From Coq Require Import NArith ZArith List Bool Lia Btauto.
From Coq Require Import ZifyBool ZifyNat ZifyN.
From Verif Require Import Base.Word Base.WordLemmas.
Import ListNotations.
Open Scope N_scope.

Definition linear (f : N -> N) : Prop := forall x y, f (N.lxor x y) = N.lxor (f x) (f y).

Lemma linear_0 f : linear f -> f 0 = 0.
Proof.
  intros H. specialize (H 0 0). rewrite N.lxor_nilpotent in H.
  apply (f_equal (N.lxor (f 0))) in H.
  now rewrite <- N.lxor_assoc, N.lxor_nilpotent, N.lxor_0_l in H.
Qed.

(** Matrix times vector: xor of the columns selected by the bits of [x]. *)
Fixpoint app (cols : list N) (x : N) : N :=
  match cols with
  | [] => 0
  | c :: t => let r := app t (N.div2 x) in if N.odd x then N.lxor c r else r
  end.

Lemma xor4 a b c d : N.lxor (N.lxor a b) (N.lxor c d) = N.lxor (N.lxor a c) (N.lxor b d).
Proof. apply N.bits_inj; intro n. rewrite !N.lxor_spec. btauto. Qed.

Lemma div2_lxor x y : N.div2 (N.lxor x y) = N.lxor (N.div2 x) (N.div2 y).
Proof. rewrite !N.div2_spec. apply N.shiftr_lxor. Qed.
Lemma odd_lxor x y : N.odd (N.lxor x y) = xorb (N.odd x) (N.odd y).
Proof. rewrite <- !N.bit0_odd. apply N.lxor_spec. Qed.

Lemma app_linear cols : linear (app cols).
Proof.
  induction cols as [|c t IH]; intros x y; cbn [app]; [reflexivity|].
  rewrite div2_lxor, odd_lxor, IH.
  destruct (N.odd x), (N.odd y); cbn [xorb];
    apply N.bits_inj; intro n; rewrite !N.lxor_spec; btauto.
Qed.

(** The matrix of a linear map on [n]-bit words. *)
Definition basis (n : nat) : list N := map (fun i => N.shiftl 1 (N.of_nat i)) (seq 0 n).
Definition mat (n : nat) (f : N -> N) : list N := map f (basis n).

Lemma double_odd x : x = N.lxor (N.b2n (N.odd x)) (2 * N.div2 x).
Proof.
  apply N.bits_inj; intro n. rewrite N.lxor_spec.
  destruct n as [|p] using N.peano_ind.
  - rewrite N.testbit_even_0, N.bit0_odd. destruct (N.odd x); reflexivity.
  - rewrite N.testbit_even_succ by lia. rewrite N.div2_spec, N.shiftr_spec by lia.
    rewrite N.add_1_r. replace (N.testbit (N.b2n (N.odd x)) (N.succ p)) with false; [now destruct (N.testbit x (N.succ p))|].
    destruct (N.odd x); cbn [N.b2n]; [|now rewrite N.bits_0]. destruct p; reflexivity.
Qed.

Lemma mat_app_gen n : forall f x, linear f -> x < 2 ^ N.of_nat n -> app (mat n f) x = f x.
Proof.
  induction n as [|n IH]; intros f x Hf Hx.
  - assert (x = 0) as -> by (cbn in Hx; lia). now rewrite (linear_0 f Hf).
  - assert (E : mat (S n) f = f 1 :: mat n (fun y => f (2 * y))).
    { unfold mat, basis. cbn [seq map]. f_equal. rewrite <- seq_shift, !map_map.
      apply map_ext. intros i. f_equal.
      rewrite !N.shiftl_mul_pow2, Nat2N.inj_succ, N.pow_succ_r'. lia. }
    rewrite E. cbn [app].
    assert (Hf2 : linear (fun y => f (2 * y))).
    { intros y z. rewrite <- Hf. f_equal. rewrite !(N.mul_comm 2), <- !(N.shiftl_mul_pow2 _ 1).
      apply N.shiftl_lxor. }
    rewrite (IH (fun y => f (2 * y)) (N.div2 x) Hf2).
    + etransitivity; [|symmetry; exact (f_equal f (double_odd x))]. rewrite Hf.
      destruct (N.odd x); cbn [N.b2n]; [reflexivity|]. rewrite (linear_0 f Hf). now rewrite N.lxor_0_l.
    + rewrite Nat2N.inj_succ, N.pow_succ_r' in Hx. rewrite N.div2_div. lia.
Qed.

(** Product of matrices. *)
Definition mmul (A B : list N) : list N := map (app A) B.
Lemma mmul_app A B x : app (mmul A B) x = app A (app B x).
Proof.
  revert x. induction B as [|c t IH]; intros x; cbn [mmul map app].
  - symmetry. apply linear_0, app_linear.
  - change (map (app A) t) with (mmul A t). rewrite IH.
    destruct (N.odd x); [|reflexivity]. now rewrite (app_linear A).
Qed.

Lemma linear_id : linear (fun x => x).
Proof. intros x y. reflexivity. Qed.
Lemma app_basis n x : x < 2 ^ N.of_nat n -> app (basis n) x = x.
Proof.
  intros Hx. rewrite <- (mat_app_gen n (fun x => x) x linear_id Hx) at 2.
  unfold mat. now rewrite map_id.
Qed.

(** A left inverse found by computation shows injectivity. *)
Lemma kernel_trivial n f inv : linear f -> mmul inv (mat n f) = basis n ->
  forall x, x < 2 ^ N.of_nat n -> f x = 0 -> x = 0.
Proof.
  intros Hf Hi x Hx H0.
  rewrite <- (app_basis n x Hx), <- Hi, mmul_app, (mat_app_gen n f x Hf Hx), H0.
  apply linear_0, app_linear.
Qed.

Lemma linear_comp f g : linear f -> linear g -> linear (fun x => f (g x)).
Proof. intros Hf Hg x y. now rewrite Hg, Hf. Qed.
Lemma linear_lxor f g : linear f -> linear g -> linear (fun x => N.lxor (f x) (g x)).
Proof. intros Hf Hg x y. rewrite Hf, Hg. apply xor4. Qed.
Lemma linear_shiftl k : linear (fun x => N.shiftl x k).
Proof. intros x y. apply N.shiftl_lxor. Qed.
Lemma linear_shiftr k : linear (fun x => N.shiftr x k).
Proof. intros x y. apply N.shiftr_lxor. Qed.
Lemma land_lxor_distr x y m : N.land (N.lxor x y) m = N.lxor (N.land x m) (N.land y m).
Proof. apply N.bits_inj; intro n. rewrite ?N.land_spec, ?N.lxor_spec, ?N.land_spec. btauto. Qed.
Lemma linear_land m : linear (fun x => N.land x m).
Proof. intros x y. apply land_lxor_distr. Qed.
Lemma linear_mod_pow2 k : linear (fun x => x mod 2^k).
Proof. intros x y. rewrite <- !N.land_ones. apply land_lxor_distr. Qed.
