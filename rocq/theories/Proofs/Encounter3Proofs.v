(** Proofs about the loading of generation 3 areas. *)
From Coq Require Import NArith Arith Ascii String List Bool Lia.
From Verif Require Import Base.Word Base.WordLemmas Model.Gen3Area Model.Encounter3 Spec.Encounter3Spec.
Import ListNotations.
Ltac Zify.zify_post_hook ::= idtac.
Open Scope list_scope.
Open Scope N_scope.

(** ** Strings *)
Lemma prefix_app p : forall s, String.prefix p s = true <-> exists b, s = (p ++ b)%string.
Proof.
  induction p as [|c p IH]; intros s.
  - split; [intros _; now exists s|destruct s; reflexivity].
  - destruct s as [|d s]; cbn.
    + split; [discriminate|intros [b H]; discriminate].
    + destruct (ascii_dec c d) as [->|Hne].
      * rewrite IH. split; intros [b H]; exists b; [now rewrite H|now injection H].
      * split; [discriminate|]. intros [b H]. injection H as H _. congruence.
Qed.

Lemma contains_occurs w : forall s, contains w s = true <-> occurs w s.
Proof.
  unfold occurs. induction s as [|c s IH]; cbn [contains].
  - rewrite orb_false_r, prefix_app. split.
    + intros [b ->]. now exists EmptyString, b.
    + intros (a & b & H). destruct a; [now exists b|discriminate].
  - rewrite orb_true_iff, prefix_app, IH. split.
    + intros [[b H]|(a & b & ->)]; [now exists EmptyString, b|now exists (String c a), b].
    + intros (a & b & H). destruct a as [|d a].
      * left. now exists b.
      * right. injection H as -> ->. now exists a, b.
Qed.

Lemma after_prefix_app p : forall s r, after_prefix p s = Some r <-> s = (p ++ r)%string.
Proof.
  induction p as [|c p IH]; intros s r; cbn.
  - split; congruence.
  - destruct s as [|d s]; [split; discriminate|].
    destruct (Ascii.eqb_spec c d) as [->|Hne].
    + rewrite IH. split; [intros ->; reflexivity|intros H; now injection H].
    + split; [discriminate|]. intros H. injection H as H _. congruence.
Qed.

Lemma between_two_nine c : char_between "2" "9" c = true <-> two_to_nine c.
Proof.
  unfold two_to_nine. destruct c as [a b c d e f g h].
  destruct a, b, c, d, e, f, g, h; cbn; split; intros H;
    (discriminate || tauto || (repeat destruct H as [H|H]; discriminate || destruct H)).
Qed.

Lemma head_after p s : head_between "2" "9" (after_prefix p s) = true <->
  exists d r, two_to_nine d /\ s = (p ++ String d r)%string.
Proof.
  destruct (after_prefix p s) as [t|] eqn:E.
  - apply after_prefix_app in E. subst s. destruct t as [|d r]; cbn [head_between].
    + split; [discriminate|]. intros (d & r & _ & H).
      apply after_prefix_app in H. assert (H1 : after_prefix p (p ++ "") = Some ""%string) by now apply after_prefix_app.
      congruence.
    + rewrite between_two_nine. split; [intros H; now exists d, r|]. intros (d' & r' & H & E).
      apply after_prefix_app in E. assert (H1 : after_prefix p (p ++ String d r) = Some (String d r)) by now apply after_prefix_app.
      congruence.
  - cbn. split; [discriminate|]. intros (d & r & _ & H). apply after_prefix_app in H. congruence.
Qed.

Lemma search_occurs : forall s, search_altering s = true <->
  exists a d r, two_to_nine d /\ s = (a ++ "AlteringCave_" ++ String d r)%string.
Proof.
  induction s as [|c s IH]; cbn [search_altering].
  - rewrite orb_false_r, head_after. split.
    + intros (d & r & H & E). now exists EmptyString, d, r.
    + intros (a & d & r & H & E). destruct a; [now exists d, r|discriminate].
  - rewrite orb_true_iff, head_after, IH. split.
    + intros [(d & r & H & E)|(a & d & r & H & ->)]; [now exists EmptyString, d, r|now exists (String c a), d, r].
    + intros (a & d & r & H & E). destruct a as [|x a].
      * left. now exists d, r.
      * right. injection E as -> ->. now exists a, d, r.
Qed.

Lemma skipped_empty e : skipped e = true <-> left_empty (e_label e).
Proof.
  unfold skipped, left_empty, match_altering.
  rewrite !orb_true_iff, head_after, search_occurs, contains_occurs. tauto.
Qed.

(** ** Species *)
Lemma index_number name : forall l from, In name l ->
  exists n, species_number l name n /\ index l name from = Ok (from + N.of_nat n).
Proof.
  induction l as [|x l IH]; intros from H; [destruct H|]. cbn [index].
  destruct (String.eqb_spec x name) as [->|Hne].
  - exists 0%nat. split; [split; [reflexivity|lia]|]. f_equal. cbn. lia.
  - destruct H as [H|H]; [congruence|]. destruct (IH (from + 1) H) as (n & [H1 H2] & H3).
    exists (S n). split; [split; [exact H1|]|].
    + intros [|k] Hk; cbn; [congruence|apply H2; lia].
    + rewrite H3. f_equal. lia.
Qed.

Lemma number_bound l name n : species_number l name n -> (n < length l)%nat.
Proof. intros [H _]. apply nth_error_Some. congruence. Qed.

(** ** Slots *)
Definition known (names : list string) : Prop := N.of_nat (length names) <= 2048.
Definition forms_ok (forms : nat -> res (option N)) (form : nat -> N) (count : nat) : Prop :=
  forall i, (i < count)%nat -> form i < 32 /\
    (forms i = Ok (Some (form i)) \/ (forms i = Ok None /\ form i = 0)).

Lemma pack_lor sp f : sp < 2048 -> f < 32 -> w16 (N.lor (w16 sp) (N.shiftl f 11)) = sp + 2048 * f.
Proof.
  intros H1 H2. unfold w16. rewrite (N.mod_small sp) by (change (2^16) with 65536; lia).
  rewrite N.shiftl_mul_pow2. change (2^11) with 2048.
  assert (N.lor sp (f * 2048) = sp + 2048 * f) as ->.
  { rewrite N.lor_comm, (N.mul_comm f). rewrite <- N.lxor_lor; [rewrite <- N.add_nocarry_lxor; [lia|]|].
    all: apply N.bits_inj; intros k; rewrite N.land_spec, N.bits_0; change 2048 with (2^11) in *;
      rewrite N.mul_comm; destruct (N.lt_ge_cases k 11) as [Hk|Hk];
      [now rewrite N.mul_pow2_bits_low|].
    all: rewrite <- (N.mod_small sp (2^11)) by exact H1;
      rewrite (N.mod_pow2_bits_high sp) by exact Hk; apply andb_false_r. }
  apply N.mod_small. change (2^16) with 65536. lia.
Qed.

Lemma put_mon_ok names forms form count slots i m :
  known names -> forms_ok forms form count -> mon_valid names m ->
  (i < length slots)%nat -> (i < count)%nat ->
  exists s, slot_is names (form i) m s /\
    put_mon names (forms i) slots i m = Ok (firstn i slots ++ s :: skipn (S i) slots).
Proof.
  intros Hk Hf (Hmin & Hmax & Hin) Hi Hc. unfold put_mon.
  destruct (Nat.ltb_spec i (length slots)) as [_|]; [|lia].
  destruct (index_number (m_species m) names 0 Hin) as (n & Hn & ->). cbn [rbind].
  destruct (Hf i Hc) as [Hlt Hform]. pose proof (number_bound _ _ _ Hn) as Hb. unfold known in Hk.
  exists (mkSlot3 (m_min m) (m_max m) (N.of_nat n + 2048 * form i)).
  split; [repeat split; exists n; now split|].
  assert (E1 : w8 (m_min m) = m_min m) by (apply N.mod_small; exact Hmin).
  assert (E2 : w8 (m_max m) = m_max m) by (apply N.mod_small; exact Hmax).
  destruct Hform as [E|[E E0]]; rewrite E; cbn [rbind]; cbv zeta; rewrite E1, E2; do 4 f_equal.
  - rewrite pack_lor by lia. lia.
  - rewrite E0. unfold w16. rewrite N.mod_small by (change (2^16) with 65536; lia). lia.
Qed.

Lemma nth_replace {A} (l : list A) i x k : (i < length l)%nat ->
  nth_error (firstn i l ++ x :: skipn (S i) l) k = if (k =? i)%nat then Some x else nth_error l k.
Proof.
  intros Hi. assert (Hl : length (firstn i l) = i) by (rewrite firstn_length; lia).
  destruct (Nat.eqb_spec k i) as [->|Hk].
  - rewrite nth_error_app2 by lia. now rewrite Hl, Nat.sub_diag.
  - rewrite <- (firstn_skipn i l) at 3. destruct (Nat.lt_ge_cases k i) as [Hlt|Hge].
    + rewrite !nth_error_app1 by lia. reflexivity.
    + rewrite !nth_error_app2 by lia. rewrite Hl.
      destruct (k - i)%nat as [|j] eqn:E; [lia|]. cbn [nth_error].
      assert (skipn i l = nth i l x :: skipn (S i) l) as ->; [|reflexivity].
      clear - Hi. revert i Hi. induction l as [|y l IH]; intros i Hi; [cbn in Hi; lia|].
      destruct i; [reflexivity|]. cbn. apply IH. cbn in Hi. lia.
Qed.

Lemma replace_length {A} (l : list A) i x : (i < length l)%nat ->
  length (firstn i l ++ x :: skipn (S i) l) = length l.
Proof. intros Hi. rewrite app_length, firstn_length. cbn [length]. rewrite skipn_length. lia. Qed.

Lemma put_mons_ok names forms form count : known names -> forms_ok forms form count ->
  forall l slots i, Forall (mon_valid names) l -> (i + length l <= length slots)%nat ->
  (i + length l <= count)%nat ->
  exists slots', put_mons names forms slots i l = Ok slots' /\ length slots' = length slots /\
    forall k, nth_error slots' k =
      (if (k <? i)%nat then nth_error slots k
       else match nth_error l (k - i) with Some _ => nth_error slots' k | None => nth_error slots k end) /\
      forall m, (i <= k)%nat -> nth_error l (k - i) = Some m ->
        exists s, nth_error slots' k = Some s /\ slot_is names (form k) m s.
Proof.
  intros Hk Hf l. induction l as [|m l IH]; intros slots i Hv Hlen Hc.
  - exists slots. split; [reflexivity|]. split; [reflexivity|]. intros k. split.
    + destruct (k <? i)%nat; [reflexivity|]. now destruct (k - i)%nat.
    + intros m _ H. destruct (k - i)%nat; discriminate.
  - inversion Hv as [|? ? Hm Hv']; subst. cbn [length] in Hlen, Hc. cbn [put_mons].
    destruct (put_mon_ok names forms form count slots i m Hk Hf Hm ltac:(lia) ltac:(lia)) as (s & Hs & ->).
    cbn [rbind]. set (slots1 := firstn i slots ++ s :: skipn (S i) slots).
    assert (L1 : length slots1 = length slots) by (apply replace_length; lia).
    destruct (IH slots1 (S i) Hv' ltac:(lia) ltac:(lia)) as (slots' & -> & L & H).
    exists slots'. split; [reflexivity|]. split; [lia|]. intros k.
    destruct (H k) as [Hsame Hput]. split.
    + destruct (Nat.ltb_spec k i) as [Hki|Hki].
      * rewrite Hsame. destruct (Nat.ltb_spec k (S i)); [|lia]. unfold slots1.
        rewrite nth_replace by lia. now destruct (Nat.eqb_spec k i); [lia|].
      * destruct (Nat.eq_dec k i) as [->|Hne].
        -- now rewrite Nat.sub_diag.
        -- destruct (k - i)%nat as [|j] eqn:E; [lia|]. cbn [nth_error].
           destruct (nth_error l j) eqn:En; [reflexivity|].
           rewrite Hsame. destruct (Nat.ltb_spec k (S i)); [lia|].
           replace (k - S i)%nat with j by lia. rewrite En. unfold slots1.
           rewrite nth_replace by lia. now destruct (Nat.eqb_spec k i); [lia|].
    + intros m' Hik Hm'. destruct (Nat.eq_dec k i) as [->|Hne].
      * rewrite Nat.sub_diag in Hm'. cbn in Hm'. injection Hm' as <-. exists s. split; [|exact Hs].
        rewrite Hsame. destruct (Nat.ltb_spec i (S i)); [|lia]. unfold slots1.
        rewrite nth_replace by lia. now rewrite Nat.eqb_refl.
      * destruct (k - i)%nat as [|j] eqn:E; [lia|]. cbn in Hm'.
        apply (Hput m'); [lia|]. now replace (k - S i)%nat with j by lia.
Qed.

Lemma nth_zeros {A} (z : A) n k s : nth_error (repeat z n) k = Some s -> s = z.
Proof. intros H. apply nth_error_In in H. now apply repeat_spec in H. Qed.

(** From empty slots. *)
Lemma put_zeros names forms form count l : known names -> forms_ok forms form count ->
  Forall (mon_valid names) l -> (length l <= count)%nat ->
  exists slots', put_mons names forms (repeat zero_slot count) 0 l = Ok slots' /\
    length slots' = count /\ slots_are names form l 0 slots'.
Proof.
  intros Hk Hf Hv Hc.
  destruct (put_mons_ok names forms form count Hk Hf l (repeat zero_slot count) 0 Hv) as (slots' & E & L & H);
    [rewrite repeat_length; exact Hc|exact Hc|].
  rewrite repeat_length in L. exists slots'. split; [exact E|]. split; [exact L|].
  intros i s Hs. destruct (H i) as [H1 H2]. cbn [Nat.ltb Nat.leb Nat.add] in *. rewrite Nat.sub_0_r in *.
  destruct (nth_error l i) as [m|] eqn:Em.
  - destruct (H2 m ltac:(lia) eq_refl) as (s' & Hs' & Hi). now replace s with s' by congruence.
  - rewrite H1 in Hs. apply (nth_zeros _ _ _ _ Hs).
Qed.

(** ** Fishing *)
Definition flat (r : list slot3 * list slot3 * list slot3) : list slot3 :=
  let '(a, b, c) := r in a ++ b ++ c.
Definition rods_shape (r : list slot3 * list slot3 * list slot3) : Prop :=
  let '(a, b, c) := r in length a = 2%nat /\ length b = 3%nat /\ length c = 5%nat.

Lemma put_mon_shift names form a s c i m : (length a <= i)%nat -> (i - length a < length s)%nat ->
  put_mon names form (a ++ s ++ c) i m = rmap (fun t => a ++ t ++ c) (put_mon names form s (i - length a) m).
Proof.
  intros H1 H2. unfold put_mon.
  destruct (Nat.ltb_spec i (length (a ++ s ++ c))) as [_|H]; [|rewrite !app_length in H; lia].
  destruct (Nat.ltb_spec (i - length a) (length s)) as [_|]; [|lia].
  destruct (index names (m_species m) 0); [|reflexivity]. cbn [rbind].
  destruct form as [f|]; [|reflexivity]. cbn [rbind rmap]. f_equal.
  rewrite firstn_app, firstn_all2 by lia. rewrite firstn_app.
  replace (i - length a - length s)%nat with 0%nat by lia. cbn [firstn]. rewrite app_nil_r.
  rewrite skipn_app, skipn_all2 by lia. cbn [app].
  replace (S i - length a)%nat with (S (i - length a)) by lia.
  rewrite skipn_app. replace (S (i - length a) - length s)%nat with 0%nat by lia. cbn [skipn].
  now rewrite <- !app_assoc.
Qed.

Lemma put_fish_flat names : forall l i r, rods_shape r -> (i + length l <= 10)%nat ->
  rmap flat (put_fish names r i l) = put_mons names (fun _ => Ok None) (flat r) i l /\
  (forall r', put_fish names r i l = Ok r' -> rods_shape r').
Proof.
  induction l as [|m l IH]; intros i [[a b] c] Hr Hlen.
  - split; [reflexivity|]. intros r' H. cbn in H. injection H as <-. exact Hr.
  - cbn [put_fish put_mons]. cbn [length] in Hlen. destruct Hr as (Ha & Hb & Hc).
    assert (Hput : forall s k t, put_mon names (Ok None) s k m = Ok t -> length t = length s).
    { intros s k t H. unfold put_mon in H. destruct (Nat.ltb_spec k (length s)); [|discriminate].
      destruct (index names (m_species m) 0); [|discriminate]. cbn [rbind] in H. injection H as <-.
      now apply replace_length. }
    destruct (Nat.ltb_spec i 2) as [H2|H2]; [|destruct (Nat.ltb_spec i 5) as [H5|H5]].
    + assert (E : put_mon names (Ok None) (flat (a, b, c)) i m
                  = rmap (fun t => t ++ b ++ c) (put_mon names (Ok None) a i m)).
      { cbn [flat]. pose proof (put_mon_shift names (Ok None) [] a (b ++ c) i m) as H.
        cbn [app length] in H. rewrite Nat.sub_0_r in H. apply H; lia. }
      rewrite E. destruct (put_mon names (Ok None) a i m) as [t|e] eqn:Et; cbn [rmap rbind]; [|split; [reflexivity|discriminate]].
      apply (IH (S i) (t, b, c)); [|lia]. repeat split; auto. rewrite (Hput a i t Et). exact Ha.
    + assert (E : put_mon names (Ok None) (flat (a, b, c)) i m
                  = rmap (fun t => a ++ t ++ c) (put_mon names (Ok None) b (i - 2) m)).
      { cbn [flat]. rewrite <- Ha. apply put_mon_shift; lia. }
      rewrite E. destruct (put_mon names (Ok None) b (i - 2) m) as [t|e] eqn:Et; cbn [rmap rbind]; [|split; [reflexivity|discriminate]].
      apply (IH (S i) (a, t, c)); [|lia]. repeat split; auto. rewrite (Hput b _ t Et). exact Hb.
    + assert (E : put_mon names (Ok None) (flat (a, b, c)) i m
                  = rmap (fun t => a ++ b ++ t) (put_mon names (Ok None) c (i - 5) m)).
      { cbn [flat]. rewrite app_assoc, <- (app_nil_r c) at 1.
        replace 5%nat with (length (a ++ b)) by (rewrite app_length; lia).
        rewrite put_mon_shift by (rewrite app_length; lia).
        destruct (put_mon names (Ok None) c (i - length (a ++ b)) m); [|reflexivity].
        cbn [rmap]. now rewrite app_nil_r, <- app_assoc. }
      rewrite E. destruct (put_mon names (Ok None) c (i - 5) m) as [t|e] eqn:Et; cbn [rmap rbind]; [|split; [reflexivity|discriminate]].
      apply (IH (S i) (a, b, t)); [|lia]. repeat split; auto. rewrite (Hput c _ t Et). exact Hc.
Qed.

Lemma slots_part names form l a s c : slots_are names form l 0 (a ++ s ++ c) ->
  slots_are names form l (length a) s.
Proof.
  intros H i x Hx. specialize (H (length a + i)%nat x). cbn [Nat.add] in H. apply H.
  rewrite nth_error_app2 by lia. replace (length a + i - length a)%nat with i by lia.
  rewrite nth_error_app1; [exact Hx|]. apply nth_error_Some. congruence.
Qed.

Lemma no_forms count : forms_ok (fun _ => Ok None) (fun _ => 0) count.
Proof. intros i _. split; [lia|]. now right. Qed.

Lemma put_fish_ok names l : known names -> Forall (mon_valid names) l -> (length l <= 10)%nat ->
  exists a b c, put_fish names (repeat zero_slot 2, repeat zero_slot 3, repeat zero_slot 5) 0 l = Ok (a, b, c) /\
    length a = 2%nat /\ length b = 3%nat /\ length c = 5%nat /\
    slots_are names (fun _ => 0) l 0 a /\ slots_are names (fun _ => 0) l 2 b /\
    slots_are names (fun _ => 0) l 5 c.
Proof.
  intros Hk Hv Hl.
  destruct (put_fish_flat names l 0 (repeat zero_slot 2, repeat zero_slot 3, repeat zero_slot 5)) as [E S];
    [repeat split|exact Hl|].
  destruct (put_zeros names (fun _ => Ok None) (fun _ => 0) 10 l Hk (no_forms 10) Hv Hl) as (s & Es & Ls & Hs).
  change (flat (repeat zero_slot 2, repeat zero_slot 3, repeat zero_slot 5)) with (repeat zero_slot 10) in E.
  rewrite Es in E.
  destruct (put_fish names (repeat zero_slot 2, repeat zero_slot 3, repeat zero_slot 5) 0 l) as [[[a b] c]|]; [|discriminate].
  cbn [rmap flat] in E. injection E as E. destruct (S _ eq_refl) as (Ha & Hb & Hc).
  exists a, b, c. split; [reflexivity|]. do 3 (split; [assumption|]). rewrite <- E in Hs.
  split; [|split].
  - apply (slots_part names _ l [] a (b ++ c)). exact Hs.
  - rewrite <- Ha. now apply (slots_part names _ l a b c).
  - replace 5%nat with (length (a ++ b)) by (rewrite app_length; lia).
    apply (slots_part names _ l (a ++ b) c []). now rewrite app_nil_r, <- app_assoc.
Qed.

(** ** Areas *)
Lemma unown_lists : forallb (fun e => (length (snd e) =? 12)%nat && forallb (fun f => f <? 32) (snd e)) UNOWN_ENCOUNTERS = true.
Proof. reflexivity. Qed.

(** The letters in terms of the table of the code. *)
Definition table_letter (map_name : string) (i : nat) : N :=
  match find (fun e => String.eqb (fst e) map_name) UNOWN_ENCOUNTERS with
  | Some e => nth i (snd e) 0
  | None => 0
  end.
Lemma table_letter_ok map_name i : letter map_name i = table_letter map_name i.
Proof.
  unfold letter, table_letter, chambers, UNOWN_ENCOUNTERS. cbn [find fst snd append].
  repeat match goal with |- context[String.eqb ?k map_name] =>
    destruct (String.eqb k map_name);
      [cbn [snd]; do 12 (destruct i as [|i]; [reflexivity|]); destruct i; reflexivity|] end.
  reflexivity.
Qed.
Lemma unown_forms_ok map_name : forms_ok (unown_form map_name) (letter map_name) 12.
Proof.
  intros i Hi. rewrite table_letter_ok. unfold unown_form, table_letter.
  destruct (find (fun e => String.eqb (fst e) map_name) UNOWN_ENCOUNTERS) as [[k forms]|] eqn:E.
  - apply find_some in E as [E _]. pose proof unown_lists as H. rewrite forallb_forall in H.
    specialize (H _ E). apply andb_prop in H as [H1 H2]. cbn [snd] in *.
    apply Nat.eqb_eq in H1. rewrite forallb_forall in H2.
    destruct (nth_error forms i) as [f|] eqn:Ef.
    + rewrite (nth_error_nth _ _ 0 Ef). split; [|now left]. apply N.ltb_lt, H2. now apply nth_error_In in Ef.
    + apply nth_error_None in Ef. lia.
  - split; [lia|]. now right.
Qed.

Lemma fill_area_ok names number e : known names -> enc_valid names e -> number < 65536 ->
  exists a, fill_area names number e = Ok a /\ area_is names number e a.
Proof.
  intros Hk (Hland & Hwater & Hrock & Hfish) Hn. unfold fill_area. cbv zeta.
  assert (G : forall forms form count o, forms_ok forms form count -> mons_valid names count o ->
    exists s, (match o with
               | Some g => rmap (fun s => (w8 (m_rate g), s)) (put_mons names forms (repeat zero_slot count) 0 (m_list g))
               | None => Ok (0, repeat zero_slot count)
               end) = Ok (rate o, s) /\ length s = count /\ slots_are names form (listed o) 0 s).
  { intros forms form count [g|] Hf (Hr & Hl & Hv); cbn [rate listed] in *.
    - destruct (put_zeros names forms form count (m_list g) Hk Hf Hv Hl) as (s & -> & Ls & Hs).
      exists s. cbn [rmap]. split; [|now split]. do 2 f_equal. now apply N.mod_small.
    - exists (repeat zero_slot count). split; [reflexivity|]. split; [apply repeat_length|].
      intros i s Hs. apply nth_zeros in Hs. cbn [Nat.add]. now destruct i. }
  destruct (G _ _ 12%nat (e_land e) (unown_forms_ok (e_map e)) Hland) as (s1 & -> & L1 & A1). cbn [rbind].
  destruct (G _ _ 5%nat (e_water e) (no_forms 5) Hwater) as (s2 & -> & L2 & A2). cbn [rbind].
  destruct (G _ _ 5%nat (e_rock e) (no_forms 5) Hrock) as (s3 & -> & L3 & A3). cbn [rbind].
  assert (F : exists a b c, (match e_fish e with
     | Some g => rmap (fun r => (w8 (m_rate g), r)) (put_fish names (repeat zero_slot 2, repeat zero_slot 3, repeat zero_slot 5) 0 (m_list g))
     | None => Ok (0, (repeat zero_slot 2, repeat zero_slot 3, repeat zero_slot 5))
     end) = Ok (rate (e_fish e), (a, b, c)) /\
     length a = 2%nat /\ length b = 3%nat /\ length c = 5%nat /\
     slots_are names (fun _ => 0) (listed (e_fish e)) 0 a /\ slots_are names (fun _ => 0) (listed (e_fish e)) 2 b /\
     slots_are names (fun _ => 0) (listed (e_fish e)) 5 c).
  { destruct Hfish as (Hr & Hl & Hv). destruct (e_fish e) as [g|]; cbn [rate listed] in *.
    - destruct (put_fish_ok names (m_list g) Hk Hv Hl) as (a & b & c & -> & H). exists a, b, c.
      cbn [rmap]. split; [|exact H]. do 2 f_equal. now apply N.mod_small.
    - exists (repeat zero_slot 2), (repeat zero_slot 3), (repeat zero_slot 5).
      do 4 (split; [reflexivity|]).
      repeat split; intros i s Hs; apply nth_zeros in Hs; now destruct i. }
  destruct F as (a & b & c & -> & La & Lb & Lc & Aa & Ab & Ac). cbn [rbind fst snd].
  eexists. split; [reflexivity|]. unfold area_is. cbn [a_location a_land_rate a_water_rate a_rock_rate a_fish_rate
    a_land a_water a_rock a_fish_old a_fish_good a_fish_super].
  split; [now apply N.mod_small|]. do 4 (split; [reflexivity|]).
  do 11 (split; [assumption|]). assumption.
Qed.

Lemma zero_is_empty : empty_area zero_area.
Proof.
  unfold empty_area, area_is, zero_area, slots_are. cbn [a_location a_land_rate a_water_rate a_rock_rate a_fish_rate
    a_land a_water a_rock a_fish_old a_fish_good a_fish_super e_land e_water e_rock e_fish e_map rate listed].
  repeat split; intros i s Hs; apply nth_zeros in Hs; now destruct i.
Qed.

Lemma fill_areas_ok names : known names -> forall l number, Forall (enc_valid names) l ->
  number + N.of_nat (length l) <= 65536 ->
  exists ns areas, fill_areas names number l = Ok (ns, areas) /\
    length ns = length l /\ length areas = length l /\
    forall i e, nth_error l i = Some e ->
      exists n a, nth_error ns i = Some n /\ nth_error areas i = Some a /\
        (left_empty (e_label e) -> n = ""%string /\ empty_area a) /\
        (~ left_empty (e_label e) ->
           n = clean_map_string (e_map e) /\ area_is names (number + N.of_nat i) e a).
Proof.
  intros Hk l. induction l as [|e l IH]; intros number Hv Hn.
  - exists [], []. do 3 (split; [reflexivity|]). intros [|i] e H; discriminate.
  - inversion Hv as [|? ? He Hv']; subst. cbn [length] in Hn.
    destruct (IH (number + 1) Hv' ltac:(lia)) as (ns & areas & E & L1 & L2 & H).
    cbn [fill_areas]. rewrite E.
    assert (X : exists n a, (if skipped e then Ok (""%string, zero_area)
        else rmap (fun a => (clean_map_string (e_map e), a)) (fill_area names number e)) = Ok (n, a) /\
        (left_empty (e_label e) -> n = ""%string /\ empty_area a) /\
        (~ left_empty (e_label e) -> n = clean_map_string (e_map e) /\ area_is names number e a)).
    { destruct (skipped e) eqn:Es.
      - apply skipped_empty in Es. exists ""%string, zero_area. split; [reflexivity|].
        split; [intros _; split; [reflexivity|apply zero_is_empty]|tauto].
      - destruct (fill_area_ok names number e Hk He ltac:(lia)) as (a & -> & Ha).
        exists (clean_map_string (e_map e)), a. split; [reflexivity|]. split; [|tauto].
        intros Hl. apply skipped_empty in Hl. congruence. }
    destruct X as (n & a & -> & X1 & X2). cbn [rbind rmap fst snd].
    exists (n :: ns), (a :: areas). split; [reflexivity|]. cbn [length].
    split; [lia|]. split; [lia|]. intros [|i] e' H'; cbn [nth_error] in *.
    + injection H' as <-. exists n, a. do 3 (split; [assumption || reflexivity|]).
      intros Hne. rewrite N.add_0_r. now apply X2.
    + destruct (H i e' H') as (n' & a' & H1 & H2 & H3 & H4). exists n', a'.
      do 3 (split; [assumption|]). intros Hne. destruct (H4 Hne) as [H5 H6]. split; [exact H5|].
      now replace (number + N.of_nat (S i)) with (number + 1 + N.of_nat i) by lia.
Qed.

Lemma kept_filter f game : In game gen3_games -> exists keep,
  kept f game = Ok (filter keep (file_of f game)) /\
  forall e, keep e = true <-> names_game game (e_label e).
Proof.
  intros H. unfold names_game. cbn [gen3_games In] in H.
  assert (T : forall l : list encounter, filter (fun _ => true) l = l).
  { induction l as [|x l IH]; [reflexivity|]. cbn. now rewrite IH. }
  destruct H as [<-|[<-|[<-|[<-|[<-|[]]]]]].
  - exists (fun e => contains "Ruby" (e_label e)). split; [reflexivity|]. intros e. rewrite contains_occurs.
    split; [now left|]. intros [[_ H]|[[H _]|[H|[[H _]|[H _]]]]]; (exact H || discriminate).
  - exists (fun e => contains "Sapphire" (e_label e)). split; [reflexivity|]. intros e. rewrite contains_occurs.
    split; [now right; left|]. intros [[H _]|[[_ H]|[H|[[H _]|[H _]]]]]; (exact H || discriminate).
  - exists (fun _ => true). split; [unfold kept, file_of; cbn; now rewrite T|]. intros e. split; [|reflexivity].
    intros _. right. right. now left.
  - exists (fun e => contains "FireRed" (e_label e)). split; [reflexivity|]. intros e. rewrite contains_occurs.
    split; [now right; right; right; left|]. intros [[H _]|[[H _]|[H|[[_ H]|[H _]]]]]; (exact H || discriminate).
  - exists (fun e => contains "LeafGreen" (e_label e)). split; [reflexivity|]. intros e. rewrite contains_occurs.
    split; [now right; right; right; right|]. intros [[H _]|[[H _]|[H|[[H _]|[_ H]]]]]; (exact H || discriminate).
Qed.

Lemma load_ok names f game : known names -> In game gen3_games ->
  Forall (enc_valid names) (file_of f game) -> N.of_nat (length (file_of f game)) <= 65536 ->
  exists keep ns areas,
    (forall e, keep e = true <-> names_game game (e_label e)) /\
    let es := filter keep (file_of f game) in
    load_encounter_3 names f game = Ok (ns, areas) /\
    length ns = length es /\ length areas = length es /\
    forall i e, nth_error es i = Some e ->
      exists n a, nth_error ns i = Some n /\ nth_error areas i = Some a /\
        (left_empty (e_label e) -> n = ""%string /\ empty_area a) /\
        (~ left_empty (e_label e) ->
           n = clean_map_string (e_map e) /\ area_is names (N.of_nat i) e a).
Proof.
  intros Hk Hg Hv Hl. destruct (kept_filter f game Hg) as (keep & E & Hkeep).
  unfold load_encounter_3. rewrite E. cbn [rbind].
  assert (Hlen : (length (filter keep (file_of f game)) <= length (file_of f game))%nat).
  { clear. induction (file_of f game) as [|x l IH]; [auto|]. cbn. destruct (keep x); cbn; lia. }
  destruct (fill_areas_ok names Hk (filter keep (file_of f game)) 0) as (ns & areas & E1 & L1 & L2 & H);
    [apply Forall_forall; intros e He; apply filter_In in He as [He _]; now apply (proj1 (Forall_forall _ _) Hv)
    |lia|].
  exists keep, ns, areas. split; [exact Hkeep|]. cbv zeta. do 3 (split; [assumption|]). exact H.
Qed.

(** ** From a slot back to the entry *)
From Verif Require Import Spec.Gen3WildSpec.

Lemma slot_entry names number e a t s : area_is names number e a -> In s (slots_of a t) ->
  s = mkSlot3 0 0 0 \/
  exists k m, (fst (entry_range t) <= k < fst (entry_range t) + snd (entry_range t))%nat /\
    nth_error (entry_list e t) k = Some m /\ slot_is names (entry_form e t k) m s.
Proof.
  intros (_ & _ & _ & _ & _ & L1 & S1 & L2 & S2 & L3 & S3 & L4 & S4 & L5 & S5 & L6 & S6) Hs.
  assert (G : forall form l from slots, slots_are names form l from slots -> In s slots ->
    s = mkSlot3 0 0 0 \/ exists k m, (from <= k < from + length slots)%nat /\ nth_error l k = Some m /\ slot_is names (form k) m s).
  { intros form l from slots H Hin. apply In_nth_error in Hin as (i & Hi).
    assert (Hlt : (i < length slots)%nat) by (apply nth_error_Some; congruence).
    specialize (H i s Hi). destruct (nth_error l (from + i)) as [m|] eqn:E; [|now left].
    right. exists (from + i)%nat, m. split; [lia|]. now split. }
  unfold slots_of in Hs. unfold entry_range, entry_list, entry_form.
  destruct (t =? Encounter_OLD_ROD).
  { cbn [orb fst snd]. rewrite <- L4. now apply (G (fun _ => 0)). }
  destruct (t =? Encounter_GOOD_ROD).
  { cbn [orb fst snd]. rewrite <- L5. now apply (G (fun _ => 0)). }
  destruct (t =? Encounter_SUPER_ROD).
  { cbn [orb fst snd]. pose proof (G (fun _ => 0) _ _ _ S6 Hs) as G6. rewrite L6 in G6. exact G6. }
  destruct (t =? Encounter_ROCK_SMASH).
  { cbn [orb fst snd]. rewrite <- L3. now apply (G (fun _ => 0)). }
  destruct (t =? Encounter_SURFING).
  { cbn [orb fst snd]. rewrite <- L2. now apply (G (fun _ => 0)). }
  cbn [orb fst snd]. rewrite <- L1. now apply (G (letter (e_map e))).
Qed.

Lemma unpack n f sp form : sp < 2048 -> n < 2048 -> n + 2048 * f = sp + 2048 * form -> n = sp /\ f = form.
Proof.
  intros H1 H2 E.
  assert (E1 : (n + f * 2048) mod 2048 = (sp + form * 2048) mod 2048) by (f_equal; lia).
  rewrite !N.mod_add, !N.mod_small in E1 by lia. subst. split; [reflexivity|lia].
Qed.
