From Coq Require Import NArith ZArith List Bool Lia.
From Coq Require Import ZifyBool ZifyNat ZifyN.
From Verif Require Import Base.Word Base.WordLemmas Model.Xorshift Spec.XorshiftSpec Proofs.XorshiftProofs.
Import ListNotations.
Open Scope N_scope.
Ltac Zify.zify_post_hook ::= idtac.

Lemma to_i32_small z : (-2^31 <= z < 2^31)%Z -> to_i32 z = z.
Proof. intros H. unfold to_i32. rewrite Z.mod_small by lia. lia. Qed.
Lemma to_u32_diff a : (0 <= a < 2^32)%Z -> to_u32 a = Z.to_N a.
Proof. intros H. unfold to_u32. rewrite Z.mod_small by lia. reflexivity. Qed.
Lemma to_u32_i32 a : (0 <= a < 2^32)%Z -> to_u32 (to_i32 a) = Z.to_N a.
Proof.
  intros H. rewrite <- to_u32_diff by exact H. unfold to_u32, to_i32. f_equal.
  rewrite Zminus_mod, Z.mod_mod by discriminate. rewrite <- Zminus_mod. f_equal. lia.
Qed.
Lemma signed_to_u32 z : (-2^31 <= z < 2^31)%Z -> signed32 (to_u32 z) = z.
Proof.
  intros H. unfold signed32, to_u32. destruct (Z.lt_ge_cases z 0) as [L|L].
  - replace z with (z + 4294967296 + (-1) * 4294967296)%Z at 1 2 by lia. rewrite Z.mod_add by discriminate.
    rewrite Z.mod_small by lia. destruct (N.ltb_spec (Z.to_N (z + 4294967296)) (2^31)); lia.
  - rewrite Z.mod_small by lia. destruct (N.ltb_spec (Z.to_N z) (2^31)); lia.
Qed.
Lemma to_u32_lt z : to_u32 z < 2^32.
Proof. unfold to_u32. pose proof (Z.mod_pos_bound z 4294967296 ltac:(lia)). lia. Qed.

Lemma umod_ok m a b : b <> 0 -> umod m a b = Ok (a mod b).
Proof. intros H. unfold umod. destruct (N.eqb_spec b 0); [contradiction|reflexivity]. Qed.

Lemma xs_rand_range m st mx : 1 <= mx < 2^32 ->
  xs_next_rand m st mx = (fst (xs_next m st), Ok (snd (xs_next m st) mod mx)) /\
  snd (xs_next m st) mod mx < mx.
Proof.
  intros H. split; [|apply N.mod_lt; lia]. unfold xs_next_rand. rewrite w32_small by lia.
  destruct (xs_next m st) as [st' r]. cbn [fst snd]. now rewrite umod_ok by lia.
Qed.

Lemma xs_randrange_range m st mn mx : (-2^31 <= mn)%Z -> (mn < mx < 2^31)%Z ->
  exists v, xs_next_randrange m st mn mx = (fst (xs_next m st), Ok v) /\ v < 2^32 /\
    signed32 v = (mn + Z.of_N (snd (xs_next m st)) mod (mx - mn))%Z /\
    (mn <= signed32 v < mx)%Z.
Proof.
  intros H1 H2. unfold xs_next_randrange. cbv zeta. rewrite (to_i32_small mn), (to_i32_small mx) by lia.
  assert ((match m with NumPy => to_u32 (to_i32 (mx - mn)) | Numba => to_u32 (mx - mn) end) = Z.to_N (mx - mn)) as ->.
  { destruct m; [apply to_u32_i32|apply to_u32_diff]; lia. }
  destruct (xs_next m st) as [st' r]. cbn [fst snd]. rewrite umod_ok by lia. unfold rmap. cbn [rbind].
  assert (E : Z.of_N (r mod Z.to_N (mx - mn)) = (Z.of_N r mod (mx - mn))%Z).
  { rewrite N2Z.inj_mod. f_equal. lia. }
  rewrite E. pose proof (Z.mod_pos_bound (Z.of_N r) (mx - mn) ltac:(lia)) as B.
  eexists. split; [reflexivity|]. split; [apply to_u32_lt|]. rewrite signed_to_u32 by lia. lia.
Qed.

Lemma xs_alternate_range m st mx : mx <> 0 ->
  exists v, xs_next_randrange m st (-2^31) (2^31 - 1) = (fst (xs_next m st), Ok v) /\
    xs_next_alternate_rand m st mx = (fst (xs_next m st), Ok (v mod mx)) /\ v mod mx < mx.
Proof.
  intros Hm. destruct (xs_randrange_range m st (-2^31) (2^31-1) ltac:(lia) ltac:(lia)) as (v & E & _).
  exists v. split; [exact E|]. split; [|apply N.mod_lt; lia].
  unfold xs_next_alternate_rand. change (-2147483647 - 1)%Z with (-2^31)%Z. change 2147483647%Z with (2^31 - 1)%Z.
  rewrite E. cbn [rbind]. now rewrite umod_ok.
Qed.

(** Objects reached by any calls. *)
Definition xs_reached (m : mode) (st : list N) : Prop :=
  exists junk a b c d ops, length junk = 4%nat /\ st = fst (xs_calls m (xs_new junk a b c d) ops).
Lemma xs_re_init_words st a b c d : length st = 4%nat ->
  xs_re_init st a b c d = [w32 a; w32 b; w32 c; w32 d].
Proof. destruct st as [|x [|y [|z [|w [|]]]]]; try discriminate. reflexivity. Qed.
Lemma xs_call_words m st op : xs_words st -> xs_words (fst (xs_call m st op)).
Proof.
  intros H. destruct op as [| |adv|mn mx|mx|mx|a b c d]; cbn [xs_call].
  - pose proof (xs_words_next m st H). destruct (xs_next m st); assumption.
  - pose proof (xs_next_previous m st H) as (K & _).
    destruct (xs_previous m st); exact K.
  - now apply xs_words_advance.
  - unfold xs_next_randrange. cbv zeta. pose proof (xs_words_next m st H). destruct (xs_next m st); assumption.
  - unfold xs_next_rand. cbv zeta. pose proof (xs_words_next m st H). destruct (xs_next m st); assumption.
  - unfold xs_next_alternate_rand, xs_next_randrange. cbv zeta. pose proof (xs_words_next m st H).
    destruct (xs_next m st); assumption.
  - destruct H as (x & y & z & w & -> & _). rewrite xs_re_init_words by reflexivity.
    exists (w32 a), (w32 b), (w32 c), (w32 d). split; [reflexivity|].
    split; [apply w32_lt|]. split; [apply w32_lt|]. split; apply w32_lt.
Qed.
