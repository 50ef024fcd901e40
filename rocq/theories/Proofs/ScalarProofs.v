(** Jumps by NumPy integers. *)
From Coq Require Import NArith List Lia.
From Verif Require Import Base.Word Model.Lcrng32 Model.Lcrng64 Model.Scalars.
Import ListNotations.
Open Scope N_scope.

Definition narrow (a : scalar) : Prop := match a with UInt w _ => w <> 64 | _ => True end.

Lemma with_literal_ok f a : narrow a -> exists b, with_literal f a = Ok b /\ value b = f (value a) /\ narrow b.
Proof.
  destruct a as [n|w n|n]; cbn; intros H;
    [eexists; split; [reflexivity|]; cbn; auto| |eexists; split; [reflexivity|]; cbn; auto].
  apply N.eqb_neq in H. rewrite H. eexists. split; [reflexivity|]. cbn. auto.
Qed.
Lemma odd_land n : (N.land n 1 =? 0) = negb (N.odd n).
Proof. destruct n as [|[p|p|]]; reflexivity. Qed.

Ltac both a H f :=
  let E1 := fresh in let V1 := fresh in let E2 := fresh in let V2 := fresh in let K := fresh in
  destruct (with_literal_ok (fun n => N.land n 1) a H) as (bit & E1 & V1 & _);
  destruct (with_literal_ok (fun n => N.shiftr n 1) a H) as (half & E2 & V2 & K);
  unfold and_one, shift_one; rewrite ?E1, ?E2; cbn [rbind]; rewrite V1, odd_land;
  change (N.shiftr (value a) 1) with (N.div2 (value a)) in V2; rewrite <- V2.

Lemma jump_loop32 tbl : forall fuel seed a i, narrow a ->
  jump_loop w32 fuel tbl seed a i = jump32_loop fuel tbl seed (value a) i.
Proof.
  induction fuel as [|f IH]; intros seed a i H; cbn [jump_loop jump32_loop];
    (destruct (value a =? 0); [reflexivity|]); [reflexivity|].
  both a H f. destruct (N.odd (value a)); cbn [negb].
  - destruct (nth_error tbl i) as [[add mult]|]; [apply IH; assumption|reflexivity].
  - apply IH; assumption.
Qed.
Lemma jump_loop64 tbl : forall fuel seed a i, narrow a ->
  jump_loop w64 fuel tbl seed a i = jump64_loop fuel tbl seed (value a) i.
Proof.
  induction fuel as [|f IH]; intros seed a i H; cbn [jump_loop jump64_loop];
    (destruct (value a =? 0); [reflexivity|]); [reflexivity|].
  both a H f. destruct (N.odd (value a)); cbn [negb].
  - destruct (nth_error tbl i) as [[add mult]|]; [apply IH; assumption|reflexivity].
  - apply IH; assumption.
Qed.
Lemma const_jump_loop32 tbl : forall fuel add mult a i, narrow a ->
  const_jump_loop w32 fuel tbl add mult a i = const_jump32_loop fuel tbl add mult (value a) i.
Proof.
  induction fuel as [|f IH]; intros add mult a i H; cbn [const_jump_loop const_jump32_loop];
    (destruct (value a =? 0); [reflexivity|]); [reflexivity|].
  destruct (nth_error tbl i) as [[add' mult']|]; [|reflexivity].
  both a H f. destruct (N.odd (value a)); cbn [negb]; apply IH; assumption.
Qed.
Lemma const_jump_loop64 tbl : forall fuel add mult a i, narrow a ->
  const_jump_loop w64 fuel tbl add mult a i = const_jump64_loop fuel tbl add mult (value a) i.
Proof.
  induction fuel as [|f IH]; intros add mult a i H; cbn [const_jump_loop const_jump64_loop];
    (destruct (value a =? 0); [reflexivity|]); [reflexivity|].
  destruct (nth_error tbl i) as [[add' mult']|]; [|reflexivity].
  both a H f. destruct (N.odd (value a)); cbn [negb]; apply IH; assumption.
Qed.

Lemma jump_same add mult seed a : narrow a ->
  lcrng32_jump_of add mult seed a = lcrng32_jump add mult seed (value a) /\
  lcrng64_jump_of add mult seed a = lcrng64_jump add mult seed (value a).
Proof. intros H. split; [apply jump_loop32|apply jump_loop64]; exact H. Qed.
Lemma const_jump_same add mult a : narrow a ->
  lcrng32_const_jump_of add mult a = lcrng32_const_jump add mult (value a) /\
  lcrng64_const_jump_of add mult a = lcrng64_const_jump add mult (value a).
Proof. intros H. unfold lcrng32_const_jump_of, lcrng64_const_jump_of. now rewrite const_jump_loop32, const_jump_loop64. Qed.

Lemma size_pos n : n <> 0 -> exists f, N.size_nat n = S f.
Proof. destruct n as [|p]; [congruence|]. destruct p; cbn; eauto. Qed.
Lemma jump_uint64 add mult seed n : n <> 0 ->
  lcrng32_jump_of add mult seed (UInt 64 n) = (seed, Raise TypeError) /\
  lcrng64_jump_of add mult seed (UInt 64 n) = (seed, Raise TypeError).
Proof.
  intros H. destruct (size_pos n H) as (f & E). unfold lcrng32_jump_of, lcrng64_jump_of. cbn [value]. rewrite E.
  cbn [jump_loop value]. apply N.eqb_neq in H. rewrite H. auto.
Qed.
Lemma const_jump_uint64 add mult n : n <> 0 ->
  lcrng32_const_jump_of add mult (UInt 64 n) = Raise TypeError /\
  lcrng64_const_jump_of add mult (UInt 64 n) = Raise TypeError.
Proof.
  intros H. destruct (size_pos n H) as (f & E). unfold lcrng32_const_jump_of, lcrng64_const_jump_of. cbn [value]. rewrite E.
  unfold jump_table32, jump_table64.
  cbn [const_jump_loop value jump_table32_from jump_table64_from nth_error]. apply N.eqb_neq in H. rewrite H. auto.
Qed.
