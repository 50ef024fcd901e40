(** A computable check that a buffer holds an object, for the concrete cases. *)
From Coq Require Import NArith ZArith List Bool Lia Arith.
From Verif Require Import Base.Word Model.Flatbuf Spec.FlatbufSpec.
Import ListNotations.
Open Scope N_scope.

Definition same (l m : list N) : bool := if list_eq_dec N.eq_dec l m then true else false.
Lemma same_ok l m : same l m = true -> l = m.
Proof. unfold same. now destruct (list_eq_dec N.eq_dec l m). Qed.

Definition check_bytes (buf : list N) (a : N) (l : list N) : bool :=
  (a + N.of_nat (length l) <=? N.of_nat (length buf))
  && same (firstn (length l) (skipn (N.to_nat a) buf)) l.
Lemma le_bytes_length w : forall n, length (le_bytes w n) = w.
Proof. induction w as [|w IH]; intros n; cbn; [reflexivity|]. now rewrite IH. Qed.
Definition check_number (buf : list N) (a : N) (w : nat) (n : N) : bool :=
  (n <? 2 ^ (8 * N.of_nat w)) && check_bytes buf a (le_bytes w n).

(** A number read from the buffer, 0 outside. *)
Definition peek (buf : list N) (a : N) (w : nat) : N := le_value (firstn w (skipn (N.to_nat a) buf)).

Section Check.
Context (buf : list N) (chk : obj -> N -> bool).
Fixpoint check_items (a : N) (l : list obj) : bool :=
  match l with
  | [] => true
  | o :: l' =>
      (a <? 2^32) && check_number buf a 4 (peek buf a 4) && chk o (a + peek buf a 4) && check_items (a + 4) l'
  end.
Definition check_field (a : N) (f : field) : bool :=
  let u := peek buf a 4 in
  (a <? 2^32) &&
  match f with
  | FScalar w n => check_number buf a w n
  | FRef o => check_number buf a 4 u && chk o (a + u)
  | FVec l => check_number buf a 4 u && check_number buf (a + u) 4 (N.of_nat (length l)) && check_items (a + u + 4) l
  | FStr l => check_number buf a 4 u && check_number buf (a + u) 4 (N.of_nat (length l)) && check_bytes buf (a + u + 4) l
  end.
Definition check_entry (pos vtable size : N) (k : nat) (f : option (option field)) : bool :=
  let a := vtable + 4 + 2 * N.of_nat k in
  let d := peek buf a 2 in
  match f with
  | Some (Some f) =>
      (4 + 2 * N.of_nat k <? size) && negb (d =? 0) && check_number buf a 2 d && check_field (pos + d) f
  | _ => (size <=? 4 + 2 * N.of_nat k) || check_number buf a 2 0
  end.
Definition check_object (o : obj) (pos : N) : bool :=
  match o with
  | Obj fields =>
      let s := to_signed 4 (peek buf pos 4) in
      let v := (Z.of_N pos - s)%Z in
      let vtable := Z.to_N v in
      let size := peek buf vtable 2 in
      (pos <? 2^32) && (0 <=? v)%Z && (-2^31 <=? s)%Z && (s <? 2^31)%Z
      && check_number buf pos 4 (Z.to_N (s mod 2^32))
      && check_number buf vtable 2 size && (vtable <? 2^32 - 2^16)
      && forallb (fun k => check_entry pos vtable size k (nth_error fields k))
           (seq 0 (Nat.max (length fields) (N.to_nat size)))
  end.
End Check.
Fixpoint check (depth : nat) (buf : list N) : obj -> N -> bool :=
  match depth with
  | O => fun _ _ => false
  | S depth' => check_object buf (check depth' buf)
  end.

Lemma check_bytes_ok buf a l : check_bytes buf a l = true -> bytes_at buf a l.
Proof.
  unfold check_bytes. rewrite andb_true_iff, N.leb_le. intros [H E]. apply same_ok in E.
  exists (firstn (N.to_nat a) buf), (skipn (length l) (skipn (N.to_nat a) buf)). split.
  - rewrite <- E at 1. now rewrite firstn_skipn, firstn_skipn.
  - rewrite firstn_length. lia.
Qed.
Lemma check_number_ok buf a w n : check_number buf a w n = true -> number_at buf a w n.
Proof. unfold check_number. rewrite andb_true_iff, N.ltb_lt. intros [H E]. split; [exact H|now apply check_bytes_ok]. Qed.

Ltac split_and H :=
  repeat match type of H with (_ && _)%bool = true => apply andb_true_iff in H; let X := fresh "C" in destruct H as [H X] end.
Section Sound.
Context (buf : list N) (chk : obj -> N -> bool) (Hc : forall o p, chk o p = true -> object_at buf p o).
Lemma items_sound : forall l a, check_items buf chk a l = true -> items_at buf a l.
Proof.
  induction l as [|o l IH]; intros a H; [constructor|]. cbn [check_items] in H. split_and H.
  apply Items_cons with (u := peek buf a 4); [now apply N.ltb_lt|now apply check_number_ok|now apply Hc|now apply IH].
Qed.
Lemma field_sound a f : check_field buf chk a f = true -> field_at buf a f.
Proof.
  unfold check_field. intros H. apply andb_true_iff in H as [Ha H]. apply N.ltb_lt in Ha. destruct f as [w n|o|l|l]; split_and H.
  - apply Scalar_at; [exact Ha|now apply check_number_ok].
  - apply Ref_at with (u := peek buf a 4); [exact Ha|now apply check_number_ok|now apply Hc].
  - apply Vec_at with (u := peek buf a 4); [exact Ha|now apply check_number_ok|now apply check_number_ok|now apply items_sound].
  - apply Str_at with (u := peek buf a 4); [exact Ha|now apply check_number_ok|now apply check_number_ok|now apply check_bytes_ok].
Qed.
Lemma entry_sound pos vtable size k f :
  check_entry buf chk pos vtable size k f = true -> entry_at buf pos vtable size k f.
Proof.
  unfold check_entry. intros H.
  assert (G : f = None \/ f = Some None -> (size <=? 4 + 2 * N.of_nat k) || check_number buf (vtable + 4 + 2 * N.of_nat k) 2 0 = true ->
    entry_at buf pos vtable size k f).
  { intros Hf X. destruct (N.leb_spec size (4 + 2 * N.of_nat k)) as [L|L].
    - now apply Entry_beyond.
    - cbn in X. apply Entry_zero; [lia|now apply check_number_ok|exact Hf]. }
  destruct f as [[f|]|]; [|apply G; auto|apply G; auto]. split_and H.
  apply Entry_present with (distance := peek buf (vtable + 4 + 2 * N.of_nat k) 2).
  - now apply N.ltb_lt.
  - apply N.eqb_neq. now apply negb_true_iff.
  - now apply check_number_ok.
  - now apply field_sound.
Qed.
Lemma object_sound o pos : check_object buf chk o pos = true -> object_at buf pos o.
Proof.
  destruct o as [fields]. cbn [check_object]. set (s := to_signed 4 _). cbv zeta. set (v := (Z.of_N pos - s)%Z).
  set (vtable := Z.to_N v). set (size := peek buf vtable 2). intros H. split_and H.
  apply N.ltb_lt in H. apply Z.leb_le in C5, C4. apply Z.ltb_lt in C3. apply N.ltb_lt in C0.
  assert (Ev : Z.of_N vtable = v) by (unfold vtable; now apply Z2N.id).
  apply Object_at with (vtable := vtable) (size := size); [exact H| |now apply check_number_ok|exact C0|].
  - rewrite Ev. replace (Z.of_N pos - v)%Z with s by (unfold v; lia). split; [lia|now apply check_number_ok].
  - intros k. destruct (Nat.lt_ge_cases k (Nat.max (length fields) (N.to_nat size))) as [L|L].
    + apply entry_sound. rewrite forallb_forall in C. apply C. apply in_seq. lia.
    + assert (E : nth_error fields k = None) by (apply nth_error_None; lia). rewrite E.
      apply Entry_beyond; [lia|now left].
Qed.
End Sound.
Lemma check_ok depth buf : forall o p, check depth buf o p = true -> object_at buf p o.
Proof. induction depth as [|n IH]; intros o p H; [discriminate|]. now apply (object_sound buf (check n buf) IH). Qed.
Definition check_root (depth : nat) (buf : list N) (o : obj) : bool :=
  check_number buf 0 4 (peek buf 0 4) && check depth buf o (peek buf 0 4).
Lemma check_root_ok depth buf o : check_root depth buf o = true -> root_at buf o.
Proof.
  unfold check_root. rewrite andb_true_iff. intros [H1 H2]. exists (peek buf 0 4).
  split; [now apply check_number_ok|now apply (check_ok depth)].
Qed.
