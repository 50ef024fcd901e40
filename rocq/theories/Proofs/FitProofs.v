(** Proofs for C93. *)
From Coq Require Import NArith ZArith Lia List Bool.
From Verif Require Import Base.Word Base.WordLemmas Model.Lcrng32 Model.Lcrng64 Model.LcrngObject Model.MT Model.SFMT
  Model.TinyMT Model.Xorshift Model.Xoroshiro Model.Util Model.FNV Model.SHA1 Model.SHA1Class.
From Verif Require Import Spec.XorshiftSpec Spec.MTSpec Spec.SFMTSpec Spec.TinySpec Spec.FitSpec.
From Verif Require Import Proofs.MTProofs Proofs.MTFinal Proofs.SFMTFinal Proofs.TinyProofs Proofs.XorshiftProofs
  Proofs.XorshiftRange Proofs.XoroshiroProofs Proofs.XorshiftFinal.
Ltac Zify.zify_post_hook ::= idtac.
Import ListNotations.
Open Scope N_scope.

Lemma w_lt16 x : w16 x < 2^16. Proof. unfold w16. apply N.mod_lt. discriminate. Qed.
Lemma w_lt32 x : w32 x < 2^32. Proof. unfold w32. apply N.mod_lt. discriminate. Qed.
Lemma w_lt64 x : w64 x < 2^64. Proof. unfold w64. apply N.mod_lt. discriminate. Qed.
Lemma fits_res w r : (forall v, r = Ok v -> v < 2^w) -> fits w (of_res r).
Proof. intros H. destruct r; cbn; auto. Qed.
Lemma umod_le m a b v : umod m a b = Ok v -> v <= a.
Proof.
  unfold umod. destruct (N.eqb_spec b 0) as [->|Hb].
  - destruct m; intros E; [injection E as <-; lia|discriminate].
  - intros E. injection E as <-. apply N.mod_le, Hb.
Qed.
Lemma umod_lt m a b v B : b < B -> umod m a b = Ok v -> v < B.
Proof.
  unfold umod. intros H. destruct (N.eqb_spec b 0) as [->|Hb].
  - destruct m; intros E; [injection E as <-; lia|discriminate].
  - intros E. injection E as <-. pose proof (N.mod_lt a b Hb). lia.
Qed.
Lemma udiv_le m a b v : udiv m a b = Ok v -> v <= a.
Proof.
  unfold udiv. destruct (N.eqb_spec b 0) as [->|Hb].
  - destruct m; intros E; [injection E as <-; lia|discriminate].
  - intros E. injection E as <-. apply N.div_le_upper_bound; [exact Hb|]. nia.
Qed.

(** ** LCRNG *)
Lemma jump32_fits f : forall tbl s n i v, snd (jump32_loop f tbl s n i) = Ok v -> v < 2^32.
Proof.
  induction f as [|f IH]; intros tbl s n i v; cbn [jump32_loop]; destruct (n =? 0); cbn [snd];
    try (intros E; injection E as <-; apply w_lt32); try discriminate.
  destruct (N.odd n); [|apply IH]. destruct (nth_error tbl i) as [[a b]|]; [apply IH|discriminate].
Qed.
Lemma jump64_fits f : forall tbl s n i v, snd (jump64_loop f tbl s n i) = Ok v -> v < 2^64.
Proof.
  induction f as [|f IH]; intros tbl s n i v; cbn [jump64_loop]; destruct (n =? 0); cbn [snd];
    try (intros E; injection E as <-; apply w_lt64); try discriminate.
  destruct (N.odd n); [|apply IH]. destruct (nth_error tbl i) as [[a b]|]; [apply IH|discriminate].
Qed.
Lemma jump32_seed f : forall tbl s n i, s < 2^32 -> fst (jump32_loop f tbl s n i) < 2^32.
Proof.
  induction f as [|f IH]; intros tbl s n i H; cbn [jump32_loop]; destruct (n =? 0); cbn [fst]; try assumption.
  destruct (N.odd n); [|now apply IH]. destruct (nth_error tbl i) as [[a b]|]; [apply IH, w_lt32|exact H].
Qed.
Lemma jump64_seed f : forall tbl s n i, s < 2^64 -> fst (jump64_loop f tbl s n i) < 2^64.
Proof.
  induction f as [|f IH]; intros tbl s n i H; cbn [jump64_loop]; destruct (n =? 0); cbn [fst]; try assumption.
  destruct (N.odd n); [|now apply IH]. destruct (nth_error tbl i) as [[a b]|]; [apply IH, w_lt64|exact H].
Qed.
Lemma advance32_lt add mult s n : s < 2^32 -> lcrng32_advance add mult s n < 2^32.
Proof. intros H. unfold lcrng32_advance. apply N.iter_invariant; [|exact H]. intros. apply w_lt32. Qed.
Lemma advance64_lt add mult s n : s < 2^64 -> lcrng64_advance add mult s n < 2^64.
Proof. intros H. unfold lcrng64_advance. apply N.iter_invariant; [|exact H]. intros. apply w_lt64. Qed.
Lemma half16 add mult s : fst (lcrng32_next_u16 add mult s) < 2^32 /\ snd (lcrng32_next_u16 add mult s) < 2^16.
Proof. split; [apply w_lt32|apply w_lt16]. Qed.
Lemma half32 add mult s : fst (lcrng64_next_u32 add mult s) < 2^64 /\ snd (lcrng64_next_u32 add mult s) < 2^32.
Proof. split; [apply w_lt64|apply w_lt32]. Qed.
Lemma recip_fits m r mx v : r < 2^16 -> rbind (udiv m 65535 (w16 mx)) (fun q => udiv m (w16 r) (w16 (q + 1))) = Ok v -> v < 2^16.
Proof.
  intros H. destruct (udiv m 65535 (w16 mx)) as [q|e]; cbn [rbind]; [|discriminate].
  intros E. apply udiv_le in E. pose proof (w_lt16 r). lia.
Qed.
Lemma modulo_fits m r mx v : umod m (w16 r) (w16 mx) = Ok v -> v < 2^16.
Proof. intros E. apply umod_le in E. pose proof (w_lt16 r). lia. Qed.

Lemma call_fits_32 m d add mult s op : s < 2^32 ->
  fst (lcrng32_call m d add mult s op) < 2^32 /\ fits (lcrng32_width op) (snd (lcrng32_call m d add mult s op)).
Proof.
  intros H. pose proof (half16 add mult s) as [H1 H2].
  destruct op as [| |mx|n|n|n|mx|s']; cbn [lcrng32_call lcrng32_width].
  - split; apply w_lt32.
  - destruct (lcrng32_next_u16 add mult s). split; assumption.
  - unfold lcrng32_next_rand. destruct d; cbn [fst snd]; [split; [exact H|exact I]| |];
      destruct (lcrng32_next_u16 add mult s) as [s1 r]; cbn [fst snd] in *; (split; [exact H1|]); apply fits_res.
    + apply modulo_fits.
    + intros v. now apply recip_fits.
  - split; now apply advance32_lt.
  - pose proof (jump32_seed (N.size_nat n) (jump_table32 add mult) s n 0 H) as J.
    pose proof (jump32_fits (N.size_nat n) (jump_table32 add mult) s n 0) as F. unfold lcrng32_jump.
    destruct (jump32_loop (N.size_nat n) (jump_table32 add mult) s n 0) as [s1 r]. cbn [fst snd] in *.
    split; [exact J|now apply fits_res].
  - unfold lcrng32_const_jump. destruct (const_jump32_loop _ _ _ _ _ _) as [c|e]; cbn [rmap fst snd].
    + split; apply w_lt32.
    + split; [exact H|exact I].
  - unfold lcrng32_const_rand. destruct d; cbn [fst snd]; [split; [exact H|exact I]| |];
      destruct (lcrng32_next_u16 add mult s) as [s1 r]; cbn [fst snd] in *; (split; [exact H1|]); apply fits_res.
    + apply modulo_fits.
    + intros v. now apply recip_fits.
  - split; [apply w_lt32|exact I].
Qed.
Lemma call_fits_64 d add mult s op : s < 2^64 ->
  fst (lcrng64_call d add mult s op) < 2^64 /\ fits (lcrng64_width op) (snd (lcrng64_call d add mult s op)).
Proof.
  intros H. pose proof (half32 add mult s) as [H1 H2].
  destruct op as [| |mx|n|n|n|mx|s']; cbn [lcrng64_call lcrng64_width].
  - split; apply w_lt64.
  - destruct (lcrng64_next_u32 add mult s). split; assumption.
  - unfold lcrng64_next_rand. destruct d; cbn [fst snd]; [split; [exact H|exact I]|].
    destruct (lcrng64_next_u32 add mult s) as [s1 r]; cbn [fst snd of_res fits] in *. split; [exact H1|apply w_lt32].
  - split; now apply advance64_lt.
  - pose proof (jump64_seed (N.size_nat n) (jump_table64 add mult) s n 0 H) as J.
    pose proof (jump64_fits (N.size_nat n) (jump_table64 add mult) s n 0) as F. unfold lcrng64_jump.
    destruct (jump64_loop (N.size_nat n) (jump_table64 add mult) s n 0) as [s1 r]. cbn [fst snd] in *.
    split; [exact J|now apply fits_res].
  - unfold lcrng64_const_jump. destruct (const_jump64_loop _ _ _ _ _ _) as [c|e]; cbn [rmap fst snd].
    + split; apply w_lt64.
    + split; [exact H|exact I].
  - unfold lcrng64_const_rand. destruct d; cbn [fst snd]; [split; [exact H|exact I]|].
    destruct (lcrng64_next_u32 add mult s) as [s1 r]; cbn [fst snd of_res fits] in *. split; [exact H1|apply w_lt32].
  - split; [apply w_lt64|exact I].
Qed.
Lemma run_fits_32 m d add mult ops : forall s, s < 2^32 ->
  each_fits lcrng32_width ops (snd (lcrng32_calls m d add mult s ops)).
Proof.
  induction ops as [|op t IH]; intros s H; [constructor|]. cbn [lcrng32_calls].
  pose proof (call_fits_32 m d add mult s op H) as [A B]. destruct (lcrng32_call m d add mult s op) as [s1 o].
  cbn [fst snd] in *. specialize (IH s1 A). destruct (lcrng32_calls m d add mult s1 t).
  constructor; assumption.
Qed.
Lemma run_fits_64 d add mult ops : forall s, s < 2^64 ->
  each_fits lcrng64_width ops (snd (lcrng64_calls d add mult s ops)).
Proof.
  induction ops as [|op t IH]; intros s H; [constructor|]. cbn [lcrng64_calls].
  pose proof (call_fits_64 d add mult s op H) as [A B]. destruct (lcrng64_call d add mult s op) as [s1 o].
  cbn [fst snd] in *. specialize (IH s1 A). destruct (lcrng64_calls d add mult s1 t).
  constructor; assumption.
Qed.
Lemma fits_32 m d add mult seed ops :
  each_fits lcrng32_width ops (snd (lcrng32_calls m d add mult (lcrng32_new seed) ops)).
Proof. apply run_fits_32, w_lt32. Qed.
Lemma fits_64 d add mult seed ops :
  each_fits lcrng64_width ops (snd (lcrng64_calls d add mult (lcrng64_new seed) ops)).
Proof. apply run_fits_64, w_lt64. Qed.

(** ** The twisters *)
Lemma mt_next_lt self : MTFinal.Inv self -> snd (mt_next self) < 2^32.
Proof.
  intros (seed & p & Ha).
  destruct (next_at_word _ (mt19937_rec _ _ (mt19937_exists seed)) _ _ Ha) as [_ ->].
  apply temper_lt, (mt19937_lt _ _ (mt19937_exists seed)).
Qed.
Lemma mt_call_fits m self op : MTFinal.Inv self -> fits 32 (snd (mt_call m self op)).
Proof.
  intros H. pose proof (mt_next_lt self H) as L. destruct op; cbn [mt_call].
  - destruct (mt_next self). exact L.
  - destruct (mt_advance m self adv); exact I.
  - unfold mt_next_rand. destruct (mt_next self). apply w_lt32.
  - unfold mt_next_rand_mod. destruct (mt_next self) as [s r]. cbn [fst snd] in *. apply fits_res.
    intros v E. apply umod_le in E. lia.
  - exact I.
  - exact I.
Qed.
Lemma mt_run_fits m ops : forall self, MTFinal.Inv self -> each_fits (fun _ => 32) ops (snd (mt_calls m self ops)).
Proof.
  induction ops as [|op t IH]; intros s H; [constructor|]. cbn [mt_calls].
  pose proof (mt_call_fits m s op H) as B. pose proof (MTFinal.call_inv m s op H) as A.
  destruct (mt_call m s op) as [s1 o]. cbn [fst snd] in *. specialize (IH s1 A). destruct (mt_calls m s1 t).
  constructor; assumption.
Qed.
Lemma fits_mt m junk seed ops : length junk = 624%nat ->
  each_fits (fun _ => 32) ops (snd (mt_calls m (mt_new junk seed) ops)).
Proof.
  intros L. apply mt_run_fits. exists seed, 624%nat. apply new_at_word; [apply mt19937_exists|exact L].
Qed.

Lemma sfmt_next_lt m self r : SInv self -> sfmt_next m self = Ok r -> snd r < 2^64.
Proof.
  intros (s & q & Ha) E. pose proof (sfmt19937_rec _ _ (sfmt_exists s)) as Hr.
  pose proof (SFMT_lt _ _ (sfmt_exists s)) as Hb.
  destruct (next_sat _ Hr Hb m self _ Ha) as (s' & E' & _). rewrite E' in E. injection E as <-. cbn [snd].
  apply half64_lt, Hb.
Qed.
Lemma sfmt_call_fits m self op : SInv self -> fits 64 (snd (sfmt_call m self op)).
Proof.
  intros H. pose proof (fun r => sfmt_next_lt m self r H) as L. destruct op; cbn [sfmt_call].
  - destruct (sfmt_next m self) as [[s r]|e]; [exact (L _ eq_refl)|exact I].
  - destruct (sfmt_advance m self adv); exact I.
  - unfold sfmt_next_rand. destruct (sfmt_next m self) as [[s r]|e]; [|exact I]. cbn [rmap snd].
    apply fits_res. intros v E. apply umod_le in E. specialize (L _ eq_refl). cbn [snd] in L. lia.
  - exact I.
  - destruct (sfmt_shuffle m self); exact I.
Qed.
Lemma sfmt_run_fits m ops : forall self, SInv self -> each_fits (fun _ => 64) ops (snd (sfmt_calls m self ops)).
Proof.
  induction ops as [|op t IH]; intros s H; [constructor|]. cbn [sfmt_calls].
  pose proof (sfmt_call_fits m s op H) as B. pose proof (scall_inv m s op H) as A.
  destruct (sfmt_call m s op) as [s1 o]. cbn [fst snd] in *. specialize (IH s1 A). destruct (sfmt_calls m s1 t).
  constructor; assumption.
Qed.
Lemma fits_sfmt m junk seed ops : length junk = 624%nat ->
  each_fits (fun _ => 64) ops (snd (sfmt_calls m (sfmt_new junk seed) ops)).
Proof.
  intros L. apply sfmt_run_fits. exists seed, 312%nat. apply new_sat; [apply sfmt_exists|exact L].
Qed.

Lemma temper_fits m s : tiny_words s -> tiny_temper m (tiny_arr s) < 2^(match m with NumPy => 32 | Numba => 33 end).
Proof.
  intros H. pose proof (temper_ref_lt s H) as L. destruct m.
  - rewrite temper_ref_numpy by exact H. exact L.
  - rewrite temper_ref_numba by exact H. pose proof (tiny_carry_le s H) as C.
    change (2^33) with (2^32 + 2^32). nia.
Qed.
Lemma tiny_call_fits m s op : tiny_words s -> fits (tiny_width m op) (snd (tiny_call m (tiny_arr s) op)).
Proof.
  intros H. pose proof (temper_fits m s H) as T.
  assert (T' : snd (tiny_next m (tiny_arr s)) < 2^(match m with NumPy => 32 | Numba => 33 end)).
  { unfold tiny_next. cbv zeta. cbn [snd]. rewrite shuffle_ref by exact H. apply temper_fits, next_words, H. }
  destruct op; cbn [tiny_call].
  - destruct (tiny_next m (tiny_arr s)). destruct m; exact T'.
  - destruct m; exact T.
  - exact I.
  - exact I.
  - unfold tiny_next_rand. destruct (tiny_next m (tiny_arr s)). destruct m; apply w_lt32.
  - unfold tiny_next_rand_mod. destruct (tiny_next m (tiny_arr s)) as [s1 r]. cbn [snd] in *.
    assert (fits 32 (of_res (umod m r (w32 maximum)))) as F.
    { apply fits_res. intros v E. eapply umod_lt; [|exact E]. apply w_lt32. }
    destruct m; exact F.
  - exact I.
Qed.
Lemma tiny_run_fits m ops : forall s, tiny_words s -> each_fits (tiny_width m) ops (snd (tiny_calls m (tiny_arr s) ops)).
Proof.
  induction ops as [|op t IH]; intros s H; [constructor|]. cbn [tiny_calls].
  pose proof (tiny_call_fits m s op H) as B. pose proof (call_state m s op H) as A.
  destruct (tiny_call m (tiny_arr s) op) as [s1 o]. cbn [fst snd] in *.
  destruct A as (-> & W). specialize (IH _ W).
  destruct (tiny_calls m (tiny_arr (ref_op s op)) t). constructor; assumption.
Qed.
Lemma fits_tiny m junk seed ops : length junk = 4%nat ->
  each_fits (tiny_width m) ops (snd (tiny_calls m (tiny_new m junk seed) ops)).
Proof. intros L. unfold tiny_new. rewrite re_init_ref by exact L. apply tiny_run_fits, init_words. Qed.

(** ** Xorshift and Xoroshiro *)
Lemma aget_fits w st i : Forall (fun x => x < 2^w) st -> aget st i < 2^w.
Proof.
  intros F. unfold aget. destruct (nth_in_or_default i st 0) as [Hi| ->].
  - rewrite Forall_forall in F. now apply F.
  - apply N.neq_0_lt_0, N.pow_nonzero. discriminate.
Qed.
Lemma words_fit st : xs_words st -> Forall (fun x => x < 2^32) st.
Proof. intros (x & y & z & w & -> & H). repeat constructor; apply H. Qed.
Lemma to_u32_fits z : to_u32 z < 2^32. Proof. apply XorshiftRange.to_u32_lt. Qed.
Lemma xs_call_fits m st op : xs_words st -> fits 32 (snd (xs_call m st op)).
Proof.
  intros W. assert (L : snd (xs_next m st) < 2^32).
  { rewrite xs_next_out by exact W. apply aget_fits. now apply words_fit, xs_words_next. }
  assert (R : forall a b, fits 32 (of_res (snd (xs_next_randrange m st a b)))).
  { intros a b. unfold xs_next_randrange. destruct (xs_next m st) as [s1 r]. cbn [snd].
    destruct (umod m r _) as [q|e]; [apply to_u32_fits|exact I]. }
  destruct op; cbn [xs_call].
  - destruct (xs_next m st). exact L.
  - assert (P : snd (xs_previous m st) < 2^32).
    { unfold xs_previous. cbv zeta. cbn [snd]. apply aget_fits. now apply words_fit. }
    destruct (xs_previous m st). exact P.
  - exact I.
  - specialize (R minimum maximum). destruct (xs_next_randrange m st minimum maximum). exact R.
  - unfold xs_next_rand. destruct (xs_next m st) as [s1 r]. cbn [snd] in *. apply fits_res.
    intros v E. apply umod_le in E. lia.
  - unfold xs_next_alternate_rand. specialize (R (-2147483647 - 1)%Z 2147483647%Z).
    destruct (xs_next_randrange m st _ _) as [s1 [v|e]]; cbn [snd rbind of_res fits] in *; [|exact I].
    apply fits_res. intros u E. apply umod_le in E. lia.
  - exact I.
Qed.
Lemma xs_run_fits m ops : forall st, xs_words st -> each_fits (fun _ => 32) ops (snd (xs_calls m st ops)).
Proof.
  induction ops as [|op t IH]; intros s H; [constructor|]. cbn [xs_calls].
  pose proof (xs_call_fits m s op H) as B. pose proof (xs_call_words m s op H) as A.
  destruct (xs_call m s op) as [s1 o]. cbn [fst snd] in *. specialize (IH s1 A). destruct (xs_calls m s1 t).
  constructor; assumption.
Qed.
Lemma fits_xs m junk a b c d ops : length junk = 4%nat ->
  each_fits (fun _ => 32) ops (snd (xs_calls m (xs_new junk a b c d) ops)).
Proof. intros L. now apply xs_run_fits, xs_new_words. Qed.

Lemma reject_fits f mask mx : forall st r v, xo_reject f mask mx st r = Ok v -> snd v < mx.
Proof.
  induction f as [|f IH]; intros st r v; cbn [xo_reject]; destruct (N.leb_spec mx r).
  - discriminate.
  - intros E. injection E as <-. assumption.
  - destruct (xo_next st). apply IH.
  - intros E. injection E as <-. assumption.
Qed.
Lemma land_lt64 a b : a < 2^64 -> N.land a b < 2^64.
Proof. apply (WordLemmas.land_lt_l a b 64). Qed.
Lemma reject_fits64 f mask mx : forall st r v, r < 2^64 -> xo_reject f mask mx st r = Ok v -> snd v < 2^64.
Proof.
  induction f as [|f IH]; intros st r v H; cbn [xo_reject]; destruct (N.leb_spec mx r).
  - discriminate.
  - intros E. injection E as <-. assumption.
  - destruct (xo_next st) as [s q] eqn:E. apply IH. apply land_lt64.
    change q with (snd (s, q)). rewrite <- E. apply w_lt64.
  - intros E. injection E as <-. assumption.
Qed.
Lemma xo_call_fits m st op : fits (xo_width op) (snd (xo_call m st op)).
Proof.
  destruct op; cbn [xo_call xo_width].
  - apply w_lt64.
  - apply w_lt64.
  - exact I.
  - unfold xo_next_rand. destruct (xo_next st) as [s q] eqn:Q.
    destruct (xo_reject fuel (xo_bit_mask m maximum) maximum s (N.land q (xo_bit_mask m maximum))) as [[s1 r]|e] eqn:E; [|exact I].
    cbn [snd fits]. destruct (N.leb_spec maximum (2^32)).
    + apply reject_fits in E. cbn [snd] in E. lia.
    + apply reject_fits64 in E; [exact E|]. apply land_lt64. change q with (snd (s, q)). rewrite <- Q. apply w_lt64.
  - exact I.
Qed.
Lemma fits_xo m st ops : each_fits xo_width ops (snd (xo_calls m st ops)).
Proof.
  revert st. induction ops as [|op t IH]; intros s; [constructor|]. cbn [xo_calls].
  pose proof (xo_call_fits m s op) as B. destruct (xo_call m s op) as [s1 o]. specialize (IH s1).
  destruct (xo_calls m s1 t). constructor; assumption.
Qed.
Lemma sm_call_fits m st op : fits 32 (snd (sm_call m st op)).
Proof.
  destruct op; cbn [sm_call].
  - apply w_lt32.
  - apply w_lt32.
  - exact I.
  - unfold sm_next_rand. destruct (sm_next st) as [s r] eqn:E. cbn [snd]. apply fits_res.
    intros v U. apply umod_le in U. assert (r < 2^32); [|lia].
    change r with (snd (s, r)). rewrite <- E. apply w_lt32.
  - exact I.
Qed.
Lemma fits_sm m st ops : each_fits (fun _ => 32) ops (snd (sm_calls m st ops)).
Proof.
  revert st. induction ops as [|op t IH]; intros s; [constructor|]. cbn [sm_calls].
  pose proof (sm_call_fits m s op) as B. destruct (sm_call m s op) as [s1 o]. specialize (IH s1).
  destruct (sm_calls m s1 t). constructor; assumption.
Qed.

(** ** Functions *)
Lemma fnv1_fits l : fnv1_64 l < 2^64 /\ fnv1a_64 l < 2^64.
Proof.
  assert (X : forall a b, a < 2^64 -> b < 2^64 -> N.lxor a b < 2^64) by (intros; now apply (WordLemmas.lxor_lt a b 64)).
  split; unfold fnv1_64, fnv1a_64;
  match goal with |- fold_left ?f _ ?s < _ =>
    assert (G : forall h, h < 2^64 -> fold_left f l h < 2^64); [|apply G; reflexivity] end.
  - induction l as [|c l IH]; intros h H; [exact H|]. cbn [fold_left]. apply IH. apply X; apply w_lt64.
  - induction l as [|c l IH]; intros h H; [exact H|]. cbn [fold_left]. apply IH. apply w_lt64.
Qed.
Lemma rotations_fit m v k r :
  (rotate_left_u32 m v k = Ok r \/ rotate_right_u32 m v k = Ok r -> r < 2^32) /\
  (rotate_left_u64 m v k = Ok r \/ rotate_right_u64 m v k = Ok r -> r < 2^64).
Proof.
  unfold rotate_left_u32, rotate_right_u32, rotate_left_u64, rotate_right_u64, rotate. cbv zeta.
  split; intros [E|E]; destruct m; cbv beta iota in E; try (destruct (_ || _) in E; [discriminate|]);
    injection E as <-; first [apply w_lt32 | apply w_lt64].
Qed.
Lemma change_endian_fits v : change_endian_u32 v < 2^32. Proof. apply w_lt32. Qed.
Lemma hash_fits s alpha : snd (sha1_hash_seed s alpha) < 2^64.
Proof.
  unfold sha1_hash_seed. cbv zeta. destruct (hash_rounds _ _ _ _ _ _) as [b c]. cbn [snd].
  unfold lcrng64_next. apply w_lt64.
Qed.
