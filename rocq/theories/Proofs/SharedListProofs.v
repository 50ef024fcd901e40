From Coq Require Import NArith ZArith List Bool Lia.
From Coq Require Import ZifyBool ZifyNat ZifyN.
From Verif Require Import Base.Word Base.WordLemmas Model.RNGList Model.SharedList.
From Verif Require Import Spec.RNGListSpec Spec.SharedListSpec Proofs.RNGListProofs.
Import ListNotations.
Open Scope N_scope.
Ltac Zify.zify_post_hook ::= idtac.

Lemma put_nth_eq {A} (l : list A) k v x : nth_error l k = Some x -> nth_error (put l k v) k = Some v.
Proof. revert k. induction l as [|a l IH]; intros [|k] H; cbn in *; try discriminate; [reflexivity|]. now apply IH. Qed.
Lemma put_nth_ne {A} (l : list A) k i v : i <> k -> nth_error (put l k v) i = nth_error l i.
Proof.
  revert k i. induction l as [|a l IH]; intros [|k] [|i] H; cbn in *; try reflexivity; [now contradict H|].
  apply IH. congruence.
Qed.

Section SH.
Context {S : Type}.
Variable nxt : S -> S * N.
Variable s0 : S.
Variable m : mode.
Let rng_at (i : N) : S := N.iter i (fun s => fst (nxt s)) s0.

(** One list holds what the account says. *)
Definition sl_ok (l : shared_list) (h : holding) : Prop :=
  (exists k, sl_size l = 2^k) /\ (m = Numba -> sl_size l <= 2^16) /\
  sl_cast l = h_cast h /\ sl_size l = h_size h /\
  N.of_nat (length (sl_list l)) = sl_size l /\
  sl_head l < sl_size l /\ h_cursor h < sl_size l /\
  sl_pointer l = (sl_head l + h_cursor h) mod sl_size l /\
  forall j, j < sl_size l ->
    aget (sl_list l) (N.to_nat ((sl_head l + j) mod sl_size l)) = sl_cast l (stream nxt s0 (held h j)).

Lemma sl_ok_ext l h h' : h_cast h = h_cast h' -> h_size h = h_size h' -> h_cursor h = h_cursor h' ->
  (forall j, j < h_size h -> held h j = held h' j) -> sl_ok l h -> sl_ok l h'.
Proof.
  intros E1 E2 E3 E4 (K & M & C & Z & L & H & Cu & P & V).
  unfold sl_ok. rewrite <- E1, <- E2, <- E3.
  split; [exact K|]. split; [exact M|]. split; [exact C|]. split; [exact Z|]. split; [exact L|]. split; [exact H|].
  split; [exact Cu|]. split; [exact P|]. intros j Hj. rewrite <- E4 by lia. now apply V.
Qed.

Lemma open_close (l : shared_list) (self : rnglist S) : sl_open (rl_rng self) (sl_close l self) = self.
Proof. destruct self. reflexivity. Qed.

(** filling the whole list *)
Lemma refill_ok l cur gone cast size : (exists k, size = 2^k) -> (m = Numba -> size <= 2^16) ->
  N.of_nat (length (rl_list l)) = size -> rl_rng l = rng_at gone ->
  let self := rl_re_init cast nxt size l in
  rl_rng self = rng_at (gone + size) /\
  sl_ok (sl_close (mk_sl cast size cur 0 0) self) (mk_holding cast size (fun j => gone + j) 0).
Proof.
  intros K M L R. cbv zeta. unfold rl_re_init.
  destruct (fill_inv cast nxt s0 size gone (rl_list l) L) as (l' & E & L' & V).
  rewrite R. unfold rng_at. rewrite E. cbn [rl_rng]. split; [reflexivity|].
  assert (SP : 0 < size). { destruct K as [k ->]. pose proof (N.pow_nonzero 2 k ltac:(discriminate)). lia. }
  unfold sl_ok, sl_close. cbn [sl_cast sl_size sl_list sl_head sl_pointer rl_list rl_head rl_pointer h_cast h_size held h_cursor].
  split; [exact K|]. split; [exact M|]. split; [reflexivity|]. split; [reflexivity|]. split; [exact L'|].
  split; [exact SP|]. split; [exact SP|]. split; [rewrite N.mod_small by exact SP; reflexivity|].
  intros j Hj. rewrite N.add_0_l, N.mod_small by exact Hj. now apply V.
Qed.

Lemma step_ok l h gone : sl_ok l h ->
  let self := rl_advance_state m (sl_cast l) nxt (sl_size l) (sl_open (rng_at gone) l) in
  rl_rng self = rng_at (gone + 1) /\ sl_ok (sl_close l self) (draw gone 1 h).
Proof.
  intros (K & M & C & Z & L & H & Cu & P & V). cbv zeta. unfold rl_advance_state, sl_open. cbn [rl_rng rl_list rl_head].
  assert (RN : nxt (rng_at gone) = (rng_at (gone + 1), stream nxt s0 gone)) by apply rng_at_next.
  rewrite RN. cbn [rl_rng]. split; [reflexivity|].
  assert (SP : 0 < sl_size l) by lia.
  assert (LS : forall v, N.land v (sl_size l - 1) = v mod sl_size l).
  { intros v. destruct K as [k ->]. apply land_size. }
  rewrite LS.
  assert (ML : (sl_head l + 1) mod sl_size l < sl_size l) by (apply N.mod_lt; lia).
  assert (IX : idx m ((sl_head l + 1) mod sl_size l) = (sl_head l + 1) mod sl_size l).
  { destruct m; [reflexivity|]. cbn [idx]. apply N.mod_small. specialize (M eq_refl). lia. }
  rewrite IX.
  unfold sl_ok, sl_close, draw.
  cbn [sl_cast sl_size sl_list sl_head sl_pointer rl_list rl_head rl_pointer h_cast h_size held h_cursor].
  split; [exact K|]. split; [exact M|]. split; [exact C|]. split; [exact Z|]. split; [now rewrite aset_length|].
  split; [exact ML|]. split; [exact SP|]. split; [rewrite N.add_0_r, N.mod_mod by lia; reflexivity|].
  rewrite <- Z. intros j Hj. rewrite N.add_mod_idemp_l by lia.
  destruct (N.ltb_spec (j + 1) (sl_size l)) as [Lj|Lj].
  - rewrite aget_aset_ne.
    + rewrite <- N.add_assoc, (N.add_comm 1 j). apply V. exact Lj.
    + destruct (N.lt_ge_cases (sl_head l + 1 + j) (sl_size l)) as [Q|Q].
      * rewrite N.mod_small by exact Q. lia.
      * replace (sl_head l + 1 + j) with (sl_head l + 1 + j - sl_size l + 1 * sl_size l) by lia.
        rewrite N.mod_add by lia. rewrite N.mod_small by lia. lia.
  - replace (sl_head l + 1 + j) with (sl_head l + 1 * sl_size l) by lia.
    rewrite N.mod_add by lia. rewrite N.mod_small by exact H. rewrite aget_aset_eq by lia.
    do 2 f_equal. lia.
Qed.

Lemma steps_ok l h gone n : sl_ok l h ->
  let self := N.iter (N.succ n) (rl_advance_state m (sl_cast l) nxt (sl_size l)) (sl_open (rng_at gone) l) in
  rl_rng self = rng_at (gone + N.succ n) /\ sl_ok (sl_close l self) (draw gone (N.succ n) h).
Proof.
  intros H. cbv zeta. induction n as [|n IH] using N.peano_ind.
  - exact (step_ok l h gone H).
  - rewrite Niter_succ. revert IH.
    generalize (N.iter (N.succ n) (rl_advance_state m (sl_cast l) nxt (sl_size l)) (sl_open (rng_at gone) l)).
    intros self [R O].
    pose proof (step_ok _ _ (gone + N.succ n) O) as T. cbv zeta in T.
    cbn [sl_cast sl_size sl_close] in T.
    unfold sl_open, sl_close in T. cbn [sl_list sl_head sl_pointer sl_cast sl_size] in T.
    rewrite <- R in T. destruct self as [rr rl rh rp]. cbn [rl_rng rl_list rl_head rl_pointer] in T.
    destruct T as [T1 T2]. split.
    + rewrite T1. f_equal. lia.
    + revert T2. unfold sl_close. cbn [sl_cast sl_size]. apply sl_ok_ext; try reflexivity.
      cbn [draw h_size held]. intros j Hj.
      destruct (N.ltb_spec (j + 1) (h_size h)) as [A|A].
      * destruct (N.ltb_spec (j + 1 + N.succ n) (h_size h)); destruct (N.ltb_spec (j + N.succ (N.succ n)) (h_size h)); try lia.
        f_equal. lia.
      * destruct (N.ltb_spec (j + N.succ (N.succ n)) (h_size h)); lia.
Qed.

Lemma call_ok l h gone op : sl_ok l h ->
  let '(self, o) := rl_call m (sl_cast l) nxt (sl_size l) (sl_open (rng_at gone) l) op in
  let '(gone', h', o') := deal_list (stream nxt s0) gone h op in
  rl_rng self = rng_at gone' /\ sl_ok (sl_close l self) h' /\ o = o'.
Proof.
  intros H. assert (H' := H). destruct H' as (K & M & C & Z & L & Hd & Cu & P & V).
  assert (SP : 0 < sl_size l) by lia.
  assert (LS : forall v, N.land v (sl_size l - 1) = v mod sl_size l).
  { intros v. destruct K as [k ->]. apply land_size. }
  assert (ML : forall v, v mod sl_size l < sl_size l) by (intros v; apply N.mod_lt; lia).
  assert (IX : forall v, v < sl_size l -> idx m v = v).
  { intros v Hv. destruct m; [reflexivity|]. cbn [idx]. apply N.mod_small. specialize (M eq_refl). lia. }
  destruct op as [|adv| |adv|]; cbn [rl_call deal_list].
  - destruct (refill_ok (sl_open (rng_at gone) l) (sl_list l) gone (sl_cast l) (sl_size l) K M L eq_refl) as [R O].
    rewrite <- Z. split; [exact R|]. split; [|reflexivity]. revert O. unfold sl_close. cbn [sl_cast sl_size].
    apply sl_ok_ext; cbn [h_cast h_size held h_cursor draw]; try assumption; try reflexivity.
    rewrite <- Z. intros j Hj. destruct (N.ltb_spec (j + sl_size l) (sl_size l)); lia.
  - unfold rl_advance_states, w32. change 4294967296 with (2^32). generalize (adv mod 2^32). intros n.
    destruct (N.eqb_spec n 0) as [->|Nn].
    + cbn [N.iter]. split; [reflexivity|]. split; [|reflexivity]. destruct l. exact H.
    + replace n with (N.succ (N.pred n)) by lia.
      destruct (steps_ok l h gone (N.pred n) H) as [R O]. split; [exact R|]. split; [exact O|reflexivity].
  - destruct (step_ok l h gone H) as [R O]. split; [exact R|]. split; [exact O|reflexivity].
  - unfold rl_advance, w32. change 4294967296 with (2^32). generalize (adv mod 2^32). intros n.
    rewrite LS, IX by apply ML. unfold sl_open. cbn [rl_rng rl_list rl_head rl_pointer].
    split; [reflexivity|]. split; [|reflexivity].
    unfold sl_ok, sl_close. cbn [sl_cast sl_size sl_list sl_head sl_pointer rl_list rl_head rl_pointer h_cast h_size held h_cursor].
    rewrite <- Z.
    split; [exact K|]. split; [exact M|]. split; [exact C|]. split; [reflexivity|]. split; [exact L|]. split; [exact Hd|].
    split; [apply ML|]. split; [|exact V]. rewrite P, N.add_mod_idemp_l, N.add_mod_idemp_r by lia. f_equal. lia.
  - unfold rl_get_value, sl_open. cbn [rl_rng rl_list rl_head rl_pointer].
    split; [reflexivity|].
    assert (E : N.land (idx m (sl_pointer l + 1)) (sl_size l - 1) = (sl_pointer l + 1) mod sl_size l).
    { rewrite LS. destruct m; [reflexivity|]. cbn [idx].
      pose proof (ML (sl_head l + h_cursor h)) as B. rewrite <- P in B. specialize (M eq_refl).
      destruct (N.eq_dec (sl_pointer l + 1) (2^16)) as [Q|Q].
      - rewrite Q. assert (sl_size l = 2^16) as -> by lia. reflexivity.
      - unfold w16. rewrite (N.mod_small (sl_pointer l + 1) 65536); [reflexivity|]. change 65536 with (2^16). lia. }
    rewrite E, IX by apply ML.
    split; [|rewrite P, V by exact Cu; rewrite C; reflexivity].
    unfold sl_ok, sl_close. cbn [sl_cast sl_size sl_list sl_head sl_pointer rl_list rl_head rl_pointer h_cast h_size held h_cursor].
    rewrite <- Z.
    split; [exact K|]. split; [exact M|]. split; [exact C|]. split; [reflexivity|]. split; [exact L|]. split; [exact Hd|].
    split; [apply ML|]. split; [|exact V]. rewrite P, N.add_mod_idemp_l, N.add_mod_idemp_r by lia. f_equal. lia.
Qed.

(** all lists *)
Definition sh_ok (st : sharing S) (a : account) : Prop :=
  fst st = rng_at (fst a) /\ Forall2 sl_ok (snd st) (snd a).

Lemma Forall2_put {A B} (R : A -> B -> Prop) la lb k a b : Forall2 R la lb -> R a b -> Forall2 R (put la k a) (put lb k b).
Proof.
  intros H Hab. revert k. induction H as [|x y la lb Hxy H IH]; intros [|k]; cbn; constructor; auto.
Qed.
Lemma Forall2_nth {A B} (R : A -> B -> Prop) la lb k : Forall2 R la lb ->
  match nth_error la k, nth_error lb k with
  | None, None => True | Some a, Some b => R a b | _, _ => False end.
Proof. intros H. revert k. induction H as [|x y la lb Hxy H IH]; intros [|k]; cbn; auto. apply IH. Qed.

Lemma sh_call_ok st a op : sh_ok st a -> built_well m op ->
  sh_ok (fst (sh_call m nxt st op)) (fst (deal (stream nxt s0) a op)) /\
  snd (sh_call m nxt st op) = snd (deal (stream nxt s0) a op).
Proof.
  destruct st as [rng ls], a as [gone hs]. intros [R F] B. cbn [fst snd] in R, F. subst rng.
  destruct op as [|cast size junk|k op]; cbn [sh_call deal].
  - unfold rng_at. rewrite rng_at_next. cbn [fst snd]. split; [|reflexivity]. split; [reflexivity|exact F].
  - cbn [fst snd]. split; [|reflexivity]. destruct B as (K & L & M).
    destruct (refill_ok (mk_rl (rng_at gone) junk 0 0) junk gone cast size K M L eq_refl) as [R O].
    split; cbn [fst snd].
    + exact R.
    + apply Forall2_app; [exact F|]. constructor; [exact O|constructor].
  - pose proof (Forall2_nth _ _ _ k F) as G.
    destruct (nth_error ls k) as [l|], (nth_error hs k) as [h|]; try contradiction.
    + pose proof (call_ok l h gone op G) as Q.
      destruct (rl_call m (sl_cast l) nxt (sl_size l) (sl_open (rng_at gone) l) op) as [self o].
      destruct (deal_list (stream nxt s0) gone h op) as [[gone' h'] o'].
      destruct Q as (R & O & E). cbn [fst snd]. split; [|exact E]. split; cbn [fst snd]; [exact R|].
      now apply Forall2_put.
    + cbn [fst snd]. split; [|reflexivity]. split; [reflexivity|exact F].
Qed.

Lemma sh_calls_ok ops : forall st a, sh_ok st a -> Forall (built_well m) ops ->
  sh_ok (fst (sh_calls m nxt st ops)) (fst (deals (stream nxt s0) a ops)) /\
  snd (sh_calls m nxt st ops) = snd (deals (stream nxt s0) a ops).
Proof.
  induction ops as [|op ops IH]; intros st a H B; [split; [exact H|reflexivity]|].
  cbn [sh_calls deals]. inversion B as [|x y B1 B2]; subst. destruct (sh_call_ok st a op H B1) as [H1 E1].
  destruct (sh_call m nxt st op) as [st1 o1]. destruct (deal (stream nxt s0) a op) as [a1 o1']. cbn [fst snd] in H1, E1.
  destruct (IH st1 a1 H1 B2) as [H2 E2].
  destruct (sh_calls m nxt st1 ops). destruct (deals (stream nxt s0) a1 ops). cbn [fst snd] in *.
  split; [exact H2|]. now rewrite E1, E2.
Qed.
End SH.

Lemma shared_history {S} (m : mode) (nxt : S -> S * N) (s0 : S) ops : Forall (built_well m) ops ->
  let '((rng, _), results) := sh_calls m nxt (s0, []) ops in
  let '((gone, _), expected) := deals (stream nxt s0) (0, []) ops in
  results = expected /\ rng = N.iter gone (fun s => fst (nxt s)) s0.
Proof.
  intros B. destruct (sh_calls_ok nxt s0 m ops (s0, []) (0, [])) as [[H _] E].
  { split; [reflexivity|constructor]. }
  { exact B. }
  destruct (sh_calls m nxt (s0, []) ops) as [[rng ls] r].
  destruct (deals (stream nxt s0) (0, []) ops) as [[gone hs] r']. cbn [fst snd] in *. split; assumption.
Qed.

(** ** the account *)
Lemma draw_fresh out gone h op : exists n, let '(gone', h', _) := deal_list out gone h op in
  gone' = gone + n /\ h_size h' = h_size h /\
  forall j, j < h_size h -> held h' j = if j + n <? h_size h then held h (j + n) else gone + (j + n - h_size h).
Proof.
  assert (T : forall j, j < h_size h -> held h j = if j + 0 <? h_size h then held h (j + 0) else gone + (j + 0 - h_size h)).
  { intros j Hj. destruct (N.ltb_spec (j + 0) (h_size h)); [f_equal|]; lia. }
  destruct op as [|n| |n|]; cbn [deal_list].
  - exists (h_size h). cbn [draw h_size held]. split; [reflexivity|]. split; reflexivity.
  - destruct (N.eqb_spec (n mod 2^32) 0).
    + exists 0. split; [lia|]. split; [reflexivity|exact T].
    + exists (n mod 2^32). split; [reflexivity|]. split; reflexivity.
  - exists 1. split; [reflexivity|]. split; reflexivity.
  - exists 0. split; [lia|]. split; [reflexivity|exact T].
  - exists 0. split; [lia|]. split; [reflexivity|exact T].
Qed.

Definition apart (gone : N) (hs : list holding) : Prop :=
  forall k1 h1 j1, nth_error hs k1 = Some h1 -> j1 < h_size h1 ->
    held h1 j1 < gone /\
    forall k2 h2 j2, nth_error hs k2 = Some h2 -> j2 < h_size h2 ->
      (held h1 j1 = held h2 j2 -> k1 = k2 /\ j1 = j2) /\
      (k1 = k2 -> j1 < j2 -> held h1 j1 < held h2 j2).

Lemma put_nth_inv {A} (l : list A) k i v x : nth_error (put l k v) i = Some x ->
  (i = k /\ x = v /\ exists y, nth_error l k = Some y) \/ (i <> k /\ nth_error l i = Some x).
Proof.
  intros H. destruct (Nat.eq_dec i k) as [->|N].
  - left. split; [reflexivity|]. destruct (nth_error l k) as [y|] eqn:E.
    + rewrite (put_nth_eq l k v y E) in H. split; [now inversion H|now exists y].
    + exfalso. assert (G : nth_error (put l k v) k = None); [|now rewrite H in G].
      clear H. revert k E. induction l as [|a l IH]; intros [|k] E; cbn in *; try reflexivity; [discriminate|]. now apply IH.
  - right. split; [exact N|]. now rewrite put_nth_ne in H.
Qed.

Lemma apart_put out gone hs k h op : apart gone hs -> nth_error hs k = Some h ->
  let '(gone', h', _) := deal_list out gone h op in apart gone' (put hs k h').
Proof.
  intros A Hk. destruct (draw_fresh out gone h op) as [n D].
  destruct (deal_list out gone h op) as [[gone' h'] o]. destruct D as (-> & Sz & V).
  intros k1 h1 j1 H1 L1.
  destruct (put_nth_inv _ _ _ _ _ H1) as [(-> & -> & _)|(N1 & O1)].
  - rewrite Sz in L1. pose proof (V j1 L1) as V1. split.
    + rewrite V1. destruct (N.ltb_spec (j1 + n) (h_size h)) as [Q|Q]; [|lia].
      destruct (A k h (j1 + n) Hk Q) as [B _]. lia.
    + intros k2 h2 j2 H2 L2. destruct (put_nth_inv _ _ _ _ _ H2) as [(-> & -> & _)|(N2 & O2)].
      * rewrite Sz in L2. rewrite V1, (V j2 L2).
        destruct (N.ltb_spec (j1 + n) (h_size h)) as [Q|Q], (N.ltb_spec (j2 + n) (h_size h)) as [Q'|Q'].
        -- destruct (A k h (j1 + n) Hk Q) as [_ B]. destruct (B k h (j2 + n) Hk Q') as [B1 B2].
           split; [intros E; destruct (B1 E); split; [reflexivity|lia]|]. intros _ Lt. apply B2; [reflexivity|lia].
        -- destruct (A k h (j1 + n) Hk Q) as [B _]. split; [intros E; exfalso; lia|]. intros; lia.
        -- destruct (A k h (j2 + n) Hk Q') as [B _]. split; [intros E; exfalso; lia|]. intros; lia.
        -- split; [intros E; split; [reflexivity|lia]|]. intros; lia.
      * split; [|intros E; now contradict N2]. intros E. exfalso. rewrite V1 in E.
        destruct (A k2 h2 j2 O2 L2) as [B _].
        destruct (N.ltb_spec (j1 + n) (h_size h)) as [Q|Q]; [|lia].
        destruct (A k h (j1 + n) Hk Q) as [_ B']. destruct (B' k2 h2 j2 O2 L2) as [B1 _]. destruct (B1 E). now apply N2.
  - destruct (A k1 h1 j1 O1 L1) as [B B']. split; [lia|].
    intros k2 h2 j2 H2 L2. destruct (put_nth_inv _ _ _ _ _ H2) as [(-> & -> & _)|(N2 & O2)].
    + rewrite Sz in L2. split; [|intros E; now contradict N1]. intros E. exfalso. rewrite (V j2 L2) in E.
      destruct (N.ltb_spec (j2 + n) (h_size h)) as [Q|Q]; [|lia].
      destruct (B' k h (j2 + n) Hk Q) as [B1 _]. destruct (B1 E). now apply N1.
    + exact (B' k2 h2 j2 O2 L2).
Qed.

Lemma apart_new gone hs cast size c : apart gone hs ->
  apart (gone + size) (hs ++ [mk_holding cast size (fun j => gone + j) c]).
Proof.
  intros A.
  assert (D : forall i x, nth_error (hs ++ [mk_holding cast size (fun j => gone + j) c]) i = Some x ->
    nth_error hs i = Some x \/ (i = length hs /\ x = mk_holding cast size (fun j => gone + j) c)).
  { intros i x H. destruct (Nat.lt_ge_cases i (length hs)) as [L|L].
    - left. now rewrite nth_error_app1 in H.
    - right. rewrite nth_error_app2 in H by exact L. destruct (i - length hs)%nat as [|q] eqn:Q.
      + inversion H. split; [lia|reflexivity].
      + cbn in H. destruct q; discriminate. }
  intros k1 h1 j1 H1 L1. destruct (D _ _ H1) as [O1|(E1 & ->)].
  - destruct (A k1 h1 j1 O1 L1) as [B B']. split; [lia|]. intros k2 h2 j2 H2 L2.
    destruct (D _ _ H2) as [O2|(E2 & ->)]; [exact (B' k2 h2 j2 O2 L2)|].
    cbn [held]. split; [intros E; exfalso; lia|]. intros; lia.
  - cbn [held h_size] in *. split; [lia|]. intros k2 h2 j2 H2 L2.
    destruct (D _ _ H2) as [O2|(E2 & ->)].
    + destruct (A k2 h2 j2 O2 L2) as [B _]. split; [intros E; exfalso; lia|].
      intros E _. exfalso. assert (k2 < length hs)%nat by (apply nth_error_Some; congruence). lia.
    + cbn [held]. split; [intros E; split; [congruence|lia]|]. intros; lia.
Qed.

Lemma apart_deal out gone hs op : apart gone hs -> let '((gone', hs'), _) := deal out (gone, hs) op in apart gone' hs'.
Proof.
  intros A. destruct op as [|cast size junk|k op]; cbn [deal].
  - intros k1 h1 j1 H1 L1. destruct (A k1 h1 j1 H1 L1) as [B B']. split; [lia|exact B'].
  - now apply apart_new.
  - destruct (nth_error hs k) as [h|] eqn:E; [|exact A].
    pose proof (apart_put out gone hs k h op A E) as P.
    destruct (deal_list out gone h op) as [[gone' h'] o]. exact P.
Qed.

Lemma never_twice out ops : no_output_twice (fst (deals out (0, []) ops)).
Proof.
  assert (G : forall ops gone hs, apart gone hs -> no_output_twice (fst (deals out (gone, hs) ops))).
  { clear ops. induction ops as [|op ops IH]; intros gone hs A; [exact A|].
    cbn [deals]. pose proof (apart_deal out gone hs op A) as P.
    destruct (deal out (gone, hs) op) as [[gone' hs'] o]. specialize (IH gone' hs' P).
    destruct (deals out (gone', hs') ops). exact IH. }
  apply G. intros k h j H. destruct k; discriminate.
Qed.

(** An output that is gone and held nowhere never turns up again. *)
Definition nowhere (p : N) (a : account) : Prop :=
  p < fst a /\ forall k h j, nth_error (snd a) k = Some h -> j < h_size h -> held h j <> p.
Lemma nowhere_deal out p a op : nowhere p a -> nowhere p (fst (deal out a op)).
Proof.
  destruct a as [gone hs]. intros [G A]. cbn [fst snd] in G, A.
  destruct op as [|cast size junk|k op]; cbn [deal].
  - split; cbn [fst snd]; [lia|exact A].
  - split; cbn [fst snd]; [lia|]. intros k h j H L.
    destruct (Nat.lt_ge_cases k (length hs)) as [Q|Q].
    + rewrite nth_error_app1 in H by exact Q. exact (A k h j H L).
    + rewrite nth_error_app2 in H by exact Q. destruct (k - length hs)%nat as [|q].
      * inversion H. cbn [held]. lia.
      * cbn in H. destruct q; discriminate.
  - destruct (nth_error hs k) as [h|] eqn:E; [|split; assumption].
    destruct (draw_fresh out gone h op) as [n D]. destruct (deal_list out gone h op) as [[gone' h'] o].
    destruct D as (-> & Sz & V). cbn [fst]. split; cbn [fst snd]; [lia|]. intros k1 h1 j1 H1 L1.
    destruct (put_nth_inv _ _ _ _ _ H1) as [(-> & -> & _)|(N1 & O1)]; [|exact (A k1 h1 j1 O1 L1)].
    rewrite Sz in L1. rewrite (V j1 L1). destruct (N.ltb_spec (j1 + n) (h_size h)) as [Q|Q]; [|lia].
    exact (A k h (j1 + n) E Q).
Qed.
Lemma nowhere_deals out p ops : forall a, nowhere p a -> nowhere p (fst (deals out a ops)).
Proof.
  induction ops as [|op ops IH]; intros a H; [exact H|]. cbn [deals].
  pose proof (nowhere_deal out p a op H) as P. destruct (deal out a op) as [a' o]. specialize (IH a' P).
  destruct (deals out a' ops). exact IH.
Qed.
Lemma deals_app out ops1 ops2 : forall a,
  fst (deals out a (ops1 ++ ops2)) = fst (deals out (fst (deals out a ops1)) ops2).
Proof.
  induction ops1 as [|op ops IH]; intros a; [reflexivity|]. cbn [app deals].
  destruct (deal out a op) as [a' o]. specialize (IH a').
  destruct (deals out a' (ops ++ ops2)). destruct (deals out a' ops). cbn [fst] in *. exact IH.
Qed.
Lemma callers_own out ops1 ops2 k h j :
  let gone := fst (fst (deals out (0, []) ops1)) in
  nth_error (snd (fst (deals out (0, []) (ops1 ++ ShNext :: ops2)))) k = Some h -> j < h_size h -> held h j <> gone.
Proof.
  cbv zeta. rewrite deals_app. pose proof (never_twice out ops1) as A.
  destruct (fst (deals out (0, []) ops1)) as [gone hs]. cbn [fst].
  intros H L. assert (W : nowhere gone (fst (deals out (gone, hs) (ShNext :: ops2)))).
  { cbn [deals deal].
    assert (W0 : nowhere gone (gone + 1, hs)).
    { split; cbn [fst snd]; [lia|]. intros k1 h1 j1 H1 L1. destruct (A k1 h1 j1 H1 L1). lia. }
    pose proof (nowhere_deals out gone ops2 _ W0) as P. destruct (deals out (gone + 1, hs) ops2). exact P. }
  exact (proj2 W k h j H L).
Qed.
