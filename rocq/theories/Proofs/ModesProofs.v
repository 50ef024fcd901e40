(** Both modes return the same values. *)
From Coq Require Import String NArith ZArith List Bool Lia.
From Verif Require Import Base.Word Base.WordLemmas Model.Float Model.Util Model.Xorshift Model.Xoroshiro Model.MT Model.SFMT Model.RNGList Model.Lcrng32 Model.Lcrng64
  Spec.XorshiftSpec Spec.MTSpec Spec.MTHistory Spec.SFMTSpec Spec.SFMTHistory Spec.ModesSpec
  Proofs.XorshiftProofs Proofs.XorshiftRange Proofs.XoroshiroProofs Proofs.XorshiftFinal Proofs.MTProofs Proofs.MTFinal Proofs.SFMTFinal Proofs.RNGListProofs Proofs.UtilProofs.
Import ListNotations.
Open Scope list_scope.
Open Scope N_scope.
Ltac Zify.zify_post_hook ::= idtac.

Lemma umod_modes a b : b <> 0 -> umod NumPy a b = umod Numba a b.
Proof. intros H. unfold umod. destruct (N.eqb_spec b 0); [contradiction|reflexivity]. Qed.
Lemma udiv_modes a b : b <> 0 -> udiv NumPy a b = udiv Numba a b.
Proof. intros H. unfold udiv. destruct (N.eqb_spec b 0); [contradiction|reflexivity]. Qed.

(** ** Xorshift128 *)
Lemma xs_advance_modes st n : xs_words st -> xs_advance NumPy st n = xs_advance Numba st n.
Proof.
  intros H. unfold xs_advance. induction n as [|n IH] using N.peano_ind; [reflexivity|].
  rewrite !Niter_succ, IH. f_equal. apply xs_modes. exact (xs_words_advance Numba st n H).
Qed.
Lemma xs_previous_modes st : xs_words st -> xs_previous NumPy st = xs_previous Numba st.
Proof.
  intros H. destruct (xs_pred Numba st H) as (st' & H' & <-).
  rewrite (xs_previous_next Numba _ H'), <- (xs_modes _ H'). exact (xs_previous_next NumPy _ H').
Qed.
Lemma xs_randrange_modes st a b : xs_words st -> (- 2 ^ 31 <= a < b)%Z -> (b < 2 ^ 31)%Z ->
  xs_next_randrange NumPy st a b = xs_next_randrange Numba st a b.
Proof.
  intros H H1 H2. unfold xs_next_randrange. rewrite (to_i32_small a), (to_i32_small b) by lia.
  cbv zeta. rewrite to_u32_i32, to_u32_diff by lia. rewrite (xs_modes _ H). destruct (xs_next Numba st) as [st' r].
  rewrite umod_modes by lia. reflexivity.
Qed.
Lemma xs_call_modes st op : xs_words st -> xs_arguments op -> xs_call NumPy st op = xs_call Numba st op.
Proof.
  intros H A. destruct op as [| |n|a b|mx|mx|]; cbn [xs_call xs_arguments] in *.
  - now rewrite (xs_modes _ H).
  - now rewrite (xs_previous_modes _ H).
  - now rewrite xs_advance_modes.
  - destruct A as [A1 A2]. now rewrite xs_randrange_modes.
  - unfold xs_next_rand. rewrite (xs_modes _ H). destruct (xs_next Numba st). now rewrite umod_modes.
  - unfold xs_next_alternate_rand. rewrite xs_randrange_modes by (assumption || lia).
    destruct (xs_next_randrange Numba st _ _) as [st' [v|e]]; cbn [rbind]; [now rewrite umod_modes|reflexivity].
  - reflexivity.
Qed.
Lemma xs_calls_modes ops : forall st, xs_words st -> Forall xs_arguments ops ->
  xs_calls NumPy st ops = xs_calls Numba st ops.
Proof.
  induction ops as [|op ops IH]; intros st H A; [reflexivity|]. inversion A; subst. cbn [xs_calls].
  rewrite xs_call_modes by assumption. pose proof (xs_call_words Numba st op H) as W.
  destruct (xs_call Numba st op) as [st' o]. cbn [fst] in W. now rewrite IH.
Qed.
Lemma xs_float_modes st lo hi : xs_words st -> xs_next_float_randrange NumPy st lo hi = xs_next_float_randrange Numba st lo hi.
Proof. intros H. unfold xs_next_float_randrange. now rewrite (xs_modes _ H). Qed.

(** ** Xoroshiro128+ *)
Lemma xo_calls_modes ops : forall st, Forall xo_arguments ops -> xo_calls NumPy st ops = xo_calls Numba st ops.
Proof.
  induction ops as [|op ops IH]; intros st A; [reflexivity|]. inversion A as [|? ? A1 A2]; subst. cbn [xo_calls].
  assert (E : xo_call NumPy st op = xo_call Numba st op).
  { destruct op as [| | |fuel mx|]; cbn [xo_call xo_arguments] in *; try reflexivity.
    unfold xo_next_rand. now rewrite !xo_bit_mask_eq. }
  rewrite E. destruct (xo_call Numba st op). now rewrite IH.
Qed.
Lemma sm_calls_modes ops : forall st, Forall sm_arguments ops -> sm_calls NumPy st ops = sm_calls Numba st ops.
Proof.
  induction ops as [|op ops IH]; intros st A; [reflexivity|]. inversion A as [|? ? A1 A2]; subst. cbn [sm_calls].
  assert (E : sm_call NumPy st op = sm_call Numba st op).
  { destruct op as [| | |mx|]; cbn [sm_call sm_arguments] in *; try reflexivity.
    unfold sm_next_rand. destruct (sm_next st). now rewrite umod_modes. }
  rewrite E. destruct (sm_call Numba st op). now rewrite IH.
Qed.

(** ** Twisters *)
Lemma mt_calls_modes junk seed ops : length junk = 624%nat -> Forall mt_arguments ops ->
  snd (mt_calls NumPy (mt_new junk seed) ops) = snd (mt_calls Numba (mt_new junk seed) ops).
Proof.
  intros L A.
  assert (X : exists x, forall s, MT19937 s (x s)).
  { exists (fun s => mt19937_seq s). intros s. apply mt19937_exists. }
  destruct X as [x X].
  rewrite (mt_history NumPy x junk seed ops X L), (mt_history Numba x junk seed ops X L); [reflexivity| |];
    (eapply Forall_impl; [|exact A]); intros op H; destruct op; cbn in *; auto; lia.
Qed.
Lemma sfmt_calls_modes junk seed ops : length junk = 624%nat -> Forall sfmt_arguments ops ->
  snd (sfmt_calls NumPy (sfmt_new junk seed) ops) = snd (sfmt_calls Numba (sfmt_new junk seed) ops).
Proof.
  intros L A.
  assert (X : exists W, forall s, SFMT19937 s (W s)).
  { exists (fun s => sfmt_seq s). intros s. apply sfmt_exists. }
  destruct X as [W X].
  rewrite (sfmt_history NumPy W junk seed ops X L), (sfmt_history Numba W junk seed ops X L); [reflexivity| |];
    (eapply Forall_impl; [|exact A]); intros op H; destruct op; cbn [sfmt_op_valid sfmt_arguments] in *; auto;
    change (2^32) with 4294967296 in *; lia.
Qed.

(** ** LCRNG32, RNGList and the functions of util.py *)
Lemma lcrng32_rand_modes d add mult seed mx : mx mod 2^16 <> 0 -> (d = D32_RECIPROCAL_DIVISION -> mx mod 2^16 <> 1) ->
  lcrng32_next_rand NumPy d add mult seed mx = lcrng32_next_rand Numba d add mult seed mx /\
  match lcrng32_const_rand NumPy d add mult mx, lcrng32_const_rand Numba d add mult mx with
  | Ok f, Ok g => forall seed, f seed = g seed
  | Raise e, Raise e' => e = e'
  | _, _ => False
  end.
Proof.
  intros H1 H2.
  assert (G : forall r, d = D32_RECIPROCAL_DIVISION ->
    rbind (udiv NumPy 65535 (w16 mx)) (fun q => udiv NumPy r (w16 (q + 1))) =
    rbind (udiv Numba 65535 (w16 mx)) (fun q => udiv Numba r (w16 (q + 1)))).
  { intros r Hd. specialize (H2 Hd). change (w16 mx) with (mx mod 2^16). rewrite udiv_modes by exact H1.
    set (M := mx mod 2^16) in *. unfold udiv at 1 3. destruct (N.eqb_spec M 0); [contradiction|]. cbn [rbind].
    apply udiv_modes. assert (65535 / M <= 32767). { apply N.lt_succ_r, N.div_lt_upper_bound; lia. }
    unfold w16. rewrite N.mod_small; lia. }
  destruct d; cbn [lcrng32_next_rand lcrng32_const_rand].
  - now split.
  - assert (E : forall s, (let '(s', r) := lcrng32_next_u16 add mult s in (s', umod NumPy (w16 r) (w16 mx))) =
                          (let '(s', r) := lcrng32_next_u16 add mult s in (s', umod Numba (w16 r) (w16 mx)))).
    { intros s. destruct (lcrng32_next_u16 add mult s). now rewrite umod_modes. }
    split; [apply E|exact E].
  - assert (E : forall s, (let '(s', r) := lcrng32_next_u16 add mult s in (s', rbind (udiv NumPy 65535 (w16 mx)) (fun q => udiv NumPy (w16 r) (w16 (q + 1))))) =
                          (let '(s', r) := lcrng32_next_u16 add mult s in (s', rbind (udiv Numba 65535 (w16 mx)) (fun q => udiv Numba (w16 r) (w16 (q + 1)))))).
    { intros s. destruct (lcrng32_next_u16 add mult s). now rewrite G. }
    split; [apply E|exact E].
Qed.
Lemma rl_calls_modes S cast (nxt : S -> S * N) s0 k junk ops : k <= 16 -> N.of_nat (length junk) = 2^k ->
  snd (rl_calls NumPy cast nxt (2^k) (rl_new cast nxt (2^k) junk s0) ops) =
  snd (rl_calls Numba cast nxt (2^k) (rl_new cast nxt (2^k) junk s0) ops).
Proof.
  intros Hk L. rewrite !rl_history; [reflexivity|exact L| |exact L|discriminate].
  intros _. apply N.pow_le_mono_r; [discriminate|exact Hk].
Qed.
Lemma rotate_modes raw width val count : (width = 32 \/ width = 64) ->
  count <= width -> (width = 64 -> 0 < count < 64) -> rotate NumPy raw width val count = rotate Numba raw width val count.
Proof.
  intros W C R. unfold rotate. cbv zeta.
  assert (E : w8 count = count) by (unfold w8; apply N.mod_small; lia). rewrite E.
  assert (F : sub8 width count = width - count /\ sub64 width count = width - count).
  { unfold sub8, sub64. split.
    - rewrite E. unfold w8. change (2^8) with 256. replace (width + (256 - count)) with (width - count + 1 * 256) by lia.
      rewrite N.mod_add by discriminate. apply N.mod_small. lia.
    - unfold w64. change (2^64) with 18446744073709551616. rewrite (N.mod_small count) by lia.
      replace (width + (18446744073709551616 - count)) with (width - count + 1 * 18446744073709551616) by lia.
      rewrite N.mod_add by discriminate. apply N.mod_small. lia. }
  destruct F as [-> ->].
  rewrite (proj2 (N.leb_gt 64 count)), (proj2 (N.leb_gt 64 (width - count))) by lia. reflexivity.
Qed.
Lemma hex_32_modes num : num < 2^32 -> hex_32 NumPy num = hex_32 Numba num.
Proof. intros H. unfold hex_32. now rewrite w32_small. Qed.
Lemma zero_maximum_modes st seed add mult maximum : xs_words st ->
  (maximum mod 2^32 = 0 ->
    snd (xs_next_rand NumPy st maximum) = Ok 0 /\ snd (xs_next_rand Numba st maximum) = Raise ZeroDivisionError) /\
  (maximum mod 2^16 = 0 ->
    snd (lcrng32_next_rand NumPy D32_MODULO add mult seed maximum) = Ok 0 /\
    snd (lcrng32_next_rand Numba D32_MODULO add mult seed maximum) = Raise ZeroDivisionError).
Proof.
  intros H. split; intros Z.
  - unfold xs_next_rand. change (w32 maximum) with (maximum mod 2^32). rewrite Z, (xs_modes _ H).
    destruct (xs_next Numba st). now split.
  - cbn [lcrng32_next_rand]. change (w16 maximum) with (maximum mod 2^16). rewrite Z.
    destruct (lcrng32_next_u16 add mult seed). now split.
Qed.
