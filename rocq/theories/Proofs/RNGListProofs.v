From Coq Require Import NArith ZArith List Bool Lia.
From Coq Require Import ZifyBool ZifyNat ZifyN.
From Verif Require Import Base.Word Base.WordLemmas Model.RNGList Spec.RNGListSpec.
Import ListNotations.
Open Scope N_scope.
Ltac Zify.zify_post_hook ::= idtac.

(** ** the size check *)
Lemma size_accepted_iff size : size_accepted size = true <-> exists k : N, size = (2 ^ Z.of_N k)%Z.
Proof.
  unfold size_accepted. rewrite andb_true_iff, negb_true_iff, Z.eqb_neq, Z.eqb_eq. split.
  - intros [H0 H].
    assert (Hp : (0 < size)%Z).
    { destruct (Z.lt_trichotomy size 0) as [L|[L|L]]; [exfalso|lia|exact L].
      assert (Z.land size (size - 1) < 0)%Z; [|lia]. apply Z.land_neg. lia. }
    exists (Z.to_N (Z.log2 size)).
    assert (Hl : (0 <= Z.log2 size)%Z) by apply Z.log2_nonneg.
    rewrite Z2N.id by exact Hl.
    destruct (Z.log2_spec size Hp) as [A B].
    destruct (Z.eq_dec size (2 ^ Z.log2 size)) as [|N]; [assumption|exfalso].
    assert (L1 : Z.log2 (size - 1) = Z.log2 size).
    { apply Z.log2_unique; [exact Hl|]. lia. }
    assert (T : Z.testbit (Z.land size (size - 1)) (Z.log2 size) = true).
    { rewrite Z.land_spec. rewrite (Z.bit_log2 size Hp). rewrite <- L1. rewrite Z.bit_log2; [reflexivity|].
      pose proof (Z.pow_pos_nonneg 2 (Z.log2 size) ltac:(lia) Hl). lia. }
    rewrite H, Z.bits_0 in T. discriminate.
  - intros (k & ->). pose proof (Z.pow_pos_nonneg 2 (Z.of_N k) ltac:(lia) ltac:(lia)) as P. split; [lia|].
    rewrite Z.sub_1_r, <- Z.ones_equiv. rewrite Z.land_ones by lia.
    apply Z.mod_same. lia.
Qed.

Section RL.
Context {S : Type}.
Variable cast : N -> N.
Variable nxt : S -> S * N.
Variable s0 : S.
Let out (i : N) : N := cast (stream nxt s0 i).
Let rng_at (i : N) : S := N.iter i (fun s => fst (nxt s)) s0.

Lemma rng_at_next i : nxt (rng_at i) = (rng_at (i + 1), stream nxt s0 i).
Proof.
  unfold rng_at, stream. rewrite (N.add_1_r i), Niter_succ. apply surjective_pairing.
Qed.

Lemma fill_inv size start l : N.of_nat (length l) = size ->
  exists l', rl_fill cast nxt size (rng_at start, l) = (rng_at (start + size), l') /\
    N.of_nat (length l') = size /\ forall j, j < size -> aget l' (N.to_nat j) = out (start + j).
Proof.
  intros Hl. unfold rl_fill.
  assert (G : forall n, n <= size -> exists l',
    N.iter n (fun '(st, i) => let '(rng, l) := st in let '(rng, v) := nxt rng in
               ((rng, aset l (N.to_nat i) (cast v)), i + 1)) ((rng_at start, l), 0)
      = ((rng_at (start + n), l'), n) /\
    length l' = length l /\ forall j, j < n -> aget l' (N.to_nat j) = out (start + j)).
  { induction n as [|n IH] using N.peano_ind; intros Hn.
    - exists l. rewrite N.add_0_r. split; [reflexivity|]. split; [reflexivity|]. intros j Hj; lia.
    - destruct IH as (l' & E & Hl' & Hv); [lia|].
      rewrite Niter_succ, E. rewrite rng_at_next.
      exists (aset l' (N.to_nat n) (cast (stream nxt s0 (start + n)))).
      split; [|split].
      + f_equal; [|lia]. f_equal. f_equal. lia.
      + now rewrite aset_length.
      + intros j Hj. destruct (N.eq_dec j n) as [->|Nj].
        * rewrite aget_aset_eq by lia. reflexivity.
        * rewrite aget_aset_ne by lia. apply Hv. lia. }
  destruct (G size (N.le_refl size)) as (l' & E & Hl' & Hv). rewrite E. cbn [fst].
  exists l'. split; [reflexivity|]. split; [lia|exact Hv].
Qed.

(** The window [(start, cursor)] of an object. *)
Variable k : N.
Let size := 2^k.
Definition rl_inv (w : window) (self : rnglist S) : Prop :=
  let '(start, cursor) := w in
  rl_rng self = rng_at (start + size) /\
  N.of_nat (length (rl_list self)) = size /\
  rl_head self < size /\ cursor < size /\
  rl_pointer self = (rl_head self + cursor) mod size /\
  forall j, j < size -> aget (rl_list self) (N.to_nat ((rl_head self + j) mod size)) = out (start + j).

Lemma size_pos : 0 < size.
Proof. unfold size. pose proof (N.pow_nonzero 2 k ltac:(discriminate)). lia. Qed.
Lemma land_size v : N.land v (size - 1) = v mod size.
Proof.
  unfold size. rewrite N.sub_1_r, <- N.ones_equiv. apply N.land_ones.
Qed.

Lemma mod_size v : v mod size < size.
Proof. apply N.mod_lt. pose proof size_pos. lia. Qed.

Lemma inv_re_init w self : rl_inv w self -> rl_inv (fst w + size, 0) (rl_re_init cast nxt size self).
Proof.
  destruct w as [start cursor]. intros (R & L & _). unfold rl_re_init.
  destruct (fill_inv size (start + size) (rl_list self) L) as (l' & E & L' & V).
  rewrite R, E. pose proof size_pos. cbn [fst]. unfold rl_inv. cbn [rl_rng rl_list rl_head rl_pointer].
  split; [reflexivity|]. split; [exact L'|]. split; [assumption|]. split; [assumption|].
  split; [now rewrite N.mod_small|].
  intros j Hj. rewrite N.add_0_l, N.mod_small by exact Hj. now apply V.
Qed.
Lemma inv_new junk : N.of_nat (length junk) = size -> rl_inv (0, 0) (rl_new cast nxt size junk s0).
Proof.
  intros L. unfold rl_new, rl_re_init. cbn [rl_rng rl_list].
  destruct (fill_inv size 0 junk L) as (l' & E & L' & V).
  change (rng_at 0) with s0 in E. rewrite E. pose proof size_pos. unfold rl_inv. cbn [rl_rng rl_list rl_head rl_pointer].
  split; [reflexivity|]. split; [exact L'|]. split; [assumption|]. split; [assumption|].
  split; [now rewrite N.mod_small|].
  intros j Hj. rewrite N.add_0_l, N.mod_small by exact Hj. now apply V.
Qed.

Variable m : mode.
Hypothesis Hm : m = Numba -> size <= 2^16.
Lemma idx_ok v : v < size -> idx m v = v.
Proof. intros H. destruct m; [reflexivity|]. cbn [idx]. apply N.mod_small. specialize (Hm eq_refl). lia. Qed.

Lemma inv_advance_state w self : rl_inv w self -> rl_inv (fst w + 1, 0) (rl_advance_state m cast nxt size self).
Proof.
  destruct w as [start cursor]. intros (R & L & H & C & P & V). unfold rl_advance_state.
  rewrite R, rng_at_next. rewrite land_size, idx_ok by apply mod_size.
  pose proof size_pos as SP. cbn [fst]. unfold rl_inv. cbn [rl_rng rl_list rl_head rl_pointer].
  split; [f_equal; lia|]. split; [now rewrite aset_length|]. split; [apply mod_size|]. split; [exact SP|].
  split; [rewrite N.add_0_r, N.mod_mod by lia; reflexivity|].
  intros j Hj. rewrite N.add_mod_idemp_l by lia.
  destruct (N.eq_dec j (size - 1)) as [->|Nj].
  - replace (rl_head self + 1 + (size - 1)) with (rl_head self + 1 * size) by lia.
    rewrite N.mod_add by lia. rewrite N.mod_small by exact H. rewrite aget_aset_eq by lia.
    unfold out. do 2 f_equal. lia.
  - rewrite aget_aset_ne.
    + rewrite <- N.add_assoc, (N.add_comm 1 j). rewrite V by lia. f_equal. lia.
    + destruct (N.lt_ge_cases (rl_head self + 1 + j) size) as [K|K].
      * rewrite N.mod_small by exact K. lia.
      * replace (rl_head self + 1 + j) with (rl_head self + 1 + j - size + 1 * size) by lia.
        rewrite N.mod_add by lia. rewrite N.mod_small by lia. lia.
Qed.
Lemma inv_advance_states w self adv : rl_inv w self ->
  rl_inv (if adv mod 2^32 =? 0 then w else (fst w + adv mod 2^32, 0)) (rl_advance_states m cast nxt size self adv).
Proof.
  intros H. unfold rl_advance_states, w32. change 4294967296 with (2^32). generalize (adv mod 2^32). intros n.
  assert (G : forall n, rl_inv (fst w + N.succ n, 0) (N.iter (N.succ n) (rl_advance_state m cast nxt size) self)).
  { clear n. induction n as [|n IH] using N.peano_ind.
    - change (fst w + N.succ 0) with (fst w + 1). now apply (inv_advance_state w).
    - rewrite Niter_succ. replace (fst w + N.succ (N.succ n)) with (fst (fst w + N.succ n, 0) + 1) by (cbn [fst]; lia).
      now apply inv_advance_state. }
  destruct (N.eqb_spec n 0) as [->|Nn]; [exact H|].
  replace n with (N.succ (N.pred n)) by lia. apply G.
Qed.
Lemma inv_advance start cursor self adv : rl_inv (start, cursor) self ->
  rl_inv (start, (cursor + adv mod 2^32) mod size) (rl_advance m size self adv).
Proof.
  intros (R & L & H & C & P & V). unfold rl_advance, w32. change 4294967296 with (2^32). generalize (adv mod 2^32). intros n.
  rewrite land_size, idx_ok by apply mod_size. unfold rl_inv. cbn [rl_rng rl_list rl_head rl_pointer].
  pose proof size_pos. split; [exact R|]. split; [exact L|]. split; [exact H|]. split; [apply mod_size|].
  split; [|exact V]. rewrite P, N.add_mod_idemp_l, N.add_mod_idemp_r by lia. f_equal. lia.
Qed.
Lemma inv_get start cursor self : rl_inv (start, cursor) self ->
  rl_inv (start, (cursor + 1) mod size) (fst (rl_get_value m size self)) /\
  snd (rl_get_value m size self) = out (start + cursor).
Proof.
  intros (R & L & H & C & P & V). unfold rl_get_value. cbn [fst snd].
  split; [|rewrite P; now apply V].
  pose proof size_pos as SP.
  assert (E : N.land (idx m (rl_pointer self + 1)) (size - 1) = (rl_pointer self + 1) mod size).
  { rewrite land_size. destruct m; [reflexivity|]. cbn [idx].
    pose proof (mod_size (rl_head self + cursor)) as B. rewrite <- P in B. specialize (Hm eq_refl).
    destruct (N.eq_dec (rl_pointer self + 1) (2^16)) as [Q|Q].
    - rewrite Q. assert (size = 2^16) as -> by lia. reflexivity.
    - unfold w16. rewrite (N.mod_small (rl_pointer self + 1) 65536); [reflexivity|]. change 65536 with (2^16). lia. }
  rewrite E, idx_ok by apply mod_size. unfold rl_inv. cbn [rl_rng rl_list rl_head rl_pointer].
  split; [exact R|]. split; [exact L|]. split; [exact H|]. split; [apply mod_size|].
  split; [|exact V]. rewrite P, N.add_mod_idemp_l, N.add_mod_idemp_r by lia. f_equal. lia.
Qed.

Lemma rl_history_inv ops : forall w self, rl_inv w self ->
  snd (rl_calls m cast nxt size self ops) = window_run out size w ops.
Proof.
  induction ops as [|op ops IH]; intros [start cursor] self H; [reflexivity|].
  cbn [rl_calls window_run].
  assert (K : rl_inv (fst (window_op out size (start, cursor) op)) (fst (rl_call m cast nxt size self op)) /\
              snd (rl_call m cast nxt size self op) = snd (window_op out size (start, cursor) op)).
  { destruct op as [|adv| |adv|]; cbn [rl_call window_op fst snd].
    - split; [|reflexivity]. exact (inv_re_init (start, cursor) self H).
    - split; [|reflexivity]. pose proof (inv_advance_states (start, cursor) self adv H) as G.
      destruct (adv mod 2^32 =? 0); exact G.
    - split; [|reflexivity]. exact (inv_advance_state (start, cursor) self H).
    - split; [|reflexivity]. now apply inv_advance.
    - destruct (inv_get start cursor self H) as [G1 G2]. destruct (rl_get_value m size self) as [self' v].
      cbn [fst snd] in *. split; [exact G1|]. now rewrite G2. }
  destruct K as [K1 K2]. destruct (rl_call m cast nxt size self op) as [self' o].
  destruct (window_op out size (start, cursor) op) as [w' o']. cbn [fst snd] in *. subst o'.
  specialize (IH w' self' K1). destruct (rl_calls m cast nxt size self' ops). cbn [snd] in *. now rewrite IH.
Qed.
End RL.

Lemma rl_history {S} (m : mode) cast (nxt : S -> S * N) (s0 : S) k junk ops :
  N.of_nat (length junk) = 2^k -> (m = Numba -> 2^k <= 2^16) ->
  snd (rl_calls m cast nxt (2^k) (rl_new cast nxt (2^k) junk s0) ops)
    = window_run (fun i => cast (stream nxt s0 i)) (2^k) (0, 0) ops.
Proof. intros L Hm. apply (rl_history_inv cast nxt s0 k m Hm). now apply inv_new. Qed.

(** Larger lists under numba: the 16-bit pointer loses its upper bits. *)
Lemma rl_numba_large {S} cast (nxt : S -> S * N) (s0 : S) k junk :
  16 < k -> N.of_nat (length junk) = 2^k ->
  snd (rl_calls Numba cast nxt (2^k) (rl_new cast nxt (2^k) junk s0) [RAdvance 65536; RGet])
    = [ONone; OVal (cast (stream nxt s0 0))].
Proof.
  intros Hk L. pose proof (inv_new cast nxt s0 k junk L) as (_ & _ & _ & _ & P & V).
  set (self := rl_new cast nxt (2^k) junk s0) in *.
  assert (Hh : rl_head self = 0).
  { unfold self, rl_new, rl_re_init. destruct (rl_fill _ _ _ _). reflexivity. }
  rewrite Hh in *.
  assert (SP : 2^17 <= 2^k) by (apply N.pow_le_mono_r; [discriminate|lia]).
  rewrite N.mod_small in P by lia.
  cbn [rl_calls rl_call]. unfold rl_get_value. cbn [snd]. unfold rl_advance. cbn [rl_list rl_pointer].
  rewrite P. change (0 + 0 + w32 65536) with 65536. rewrite N.sub_1_r, <- N.ones_equiv, N.land_ones.
  rewrite (N.mod_small 65536) by lia. change (idx Numba 65536) with 0.
  specialize (V 0). rewrite N.mod_small in V by lia. specialize (V ltac:(lia)).
  change (N.to_nat (0 + 0)) with (N.to_nat 0) in V. rewrite V. reflexivity.
Qed.
