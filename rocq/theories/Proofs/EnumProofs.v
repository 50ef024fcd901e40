(** Proofs about the enums. *)
From Coq Require Import NArith String List Bool Lia.
From Verif Require Import Model.Enums Spec.EnumSpec.
Import ListNotations.
Open Scope string_scope.
Open Scope list_scope.
Open Scope N_scope.

Definition other_games := filter (fun n => negb (String.eqb n "PLATINUM")) games.
Lemma other_games_in n : In n other_games <-> In n games /\ n <> "PLATINUM".
Proof.
  unfold other_games. rewrite filter_In, negb_true_iff, String.eqb_neq. reflexivity.
Qed.

Definition game_bit (n : string) : option N :=
  match value_of Game n with Some v => if v =? 2 ^ N.log2 v then Some (N.log2 v) else None | None => None end.
Definition pair_ok (p : string * string) : bool :=
  match game_bit (fst p), game_bit (snd p) with
  | Some i, Some j => Bool.eqb (i =? j) (String.eqb (fst p) (snd p))
  | _, _ => false
  end.
Lemma pairs_ok : forallb pair_ok (list_prod other_games other_games) = true.
Proof. vm_compute. reflexivity. Qed.
Lemma game_bit_ok n i : game_bit n = Some i -> value_of Game n = Some (2^i).
Proof.
  unfold game_bit. destruct (value_of Game n) as [v|]; [|discriminate].
  destruct (N.eqb_spec v (2 ^ N.log2 v)) as [E|]; [|discriminate]. intros H. injection H as <-. now rewrite <- E.
Qed.
Lemma pair_bits n m : In n other_games -> In m other_games ->
  exists i j, value_of Game n = Some (2^i) /\ value_of Game m = Some (2^j) /\ (i = j <-> n = m).
Proof.
  intros Hn Hm. pose proof pairs_ok as H. rewrite forallb_forall in H.
  specialize (H (n, m)). rewrite in_prod_iff in H. specialize (H (conj Hn Hm)). unfold pair_ok in H. cbn [fst snd] in H.
  destruct (game_bit n) as [i|] eqn:En; [|discriminate]. destruct (game_bit m) as [j|] eqn:Em; [|discriminate].
  exists i, j. split; [now apply game_bit_ok|]. split; [now apply game_bit_ok|].
  apply eqb_prop in H. rewrite <- N.eqb_eq, <- String.eqb_eq, H. reflexivity.
Qed.

Lemma union_bit names : (forall n, In n names -> In n other_games) -> forall m i, In m other_games ->
  value_of Game m = Some (2^i) -> N.testbit (union (value_of Game) names) i = true <-> In m names.
Proof.
  induction names as [|n names IH]; intros Hs m i Hm Hi; [change (union (value_of Game) []) with 0; rewrite N.bits_0; split; [discriminate|intros []]|].
  cbn [union fold_right In]. fold (union (value_of Game) names).
  destruct (pair_bits n m (Hs n (or_introl eq_refl)) Hm) as (a & b & Ha & Hb & E).
  rewrite Ha, N.lor_spec, orb_true_iff.
  rewrite (IH (fun k H => Hs k (or_intror H)) m i Hm Hi).
  assert (b = i). { rewrite Hi in Hb. injection Hb as Hb. now apply (N.pow_inj_r 2). }
  subst b. rewrite <- E. split; (intros [H|H]; [left|now right]).
  - destruct (N.eq_dec a i); [assumption|]. now rewrite N.pow2_bits_false in H.
  - subst a. apply N.pow2_bits_true.
Qed.

Lemma games_told_apart names m v : (forall n, In n names -> In n games /\ n <> "PLATINUM") -> In m games -> m <> "PLATINUM" ->
  value_of Game m = Some v -> (N.land (union (value_of Game) names) v <> 0 <-> In m names).
Proof.
  intros Hs Hm Hp Hv. assert (Ho : In m other_games) by now apply other_games_in.
  destruct (pair_bits m m Ho Ho) as (i & _ & Hi & _ & _).
  rewrite <- (union_bit names (fun n H => proj2 (other_games_in n) (Hs n H)) m i Ho Hi).
  rewrite Hv in Hi. injection Hi as ->. split; intros H.
  - destruct (N.testbit _ i) eqn:E; [reflexivity|]. exfalso. apply H. apply N.bits_inj. intros k. rewrite N.land_spec, N.bits_0.
    destruct (N.eq_dec i k) as [<-|]; [now rewrite E|]. rewrite N.pow2_bits_false by assumption. apply andb_false_r.
  - intros Z. assert (N.testbit 0 i = true); [|now rewrite N.bits_0 in *]. rewrite <- Z, N.land_spec, H. apply N.pow2_bits_true.
Qed.

(** ** Names and values *)
Definition canonical (name : string) : string :=
  match find (fun p => String.eqb (fst p) name) shared with Some p => snd p | None => name end.
Definition opt_is {A} (eqb : A -> A -> bool) (o : option A) (x : A) : bool := match o with Some y => eqb y x | None => false end.
Definition enum_ok (e : list (string * N)) : bool :=
  forallb (fun m => opt_is N.eqb (value_of e (fst m)) (snd m) && opt_is String.eqb (member_of e (snd m)) (canonical (fst m))) e.
Lemma opt_is_N o x : opt_is N.eqb o x = true -> o = Some x.
Proof. destruct o; [|discriminate]. cbn. intros H. apply N.eqb_eq in H. now subst. Qed.
Lemma opt_is_S o x : opt_is String.eqb o x = true -> o = Some x.
Proof. destruct o; [|discriminate]. cbn. intros H. apply String.eqb_eq in H. now subst. Qed.
Lemma enum_members e : enum_ok e = true -> forall name v, In (name, v) e ->
  value_of e name = Some v /\ member_of e v = Some (canonical name).
Proof.
  intros H name v Hin. unfold enum_ok in H. rewrite forallb_forall in H. specialize (H _ Hin). cbn [fst snd] in H.
  apply andb_prop in H as [H1 H2]. split; [now apply opt_is_N|now apply opt_is_S].
Qed.
Lemma enums_ok : forallb enum_ok [Encounter; Lead; Method; Language; DSType; LAArea; LATime; LAWeather] = true.
Proof. vm_compute. reflexivity. Qed.
Lemma members e name v : In e [Encounter; Lead; Method; Language; DSType; LAArea; LATime; LAWeather] -> In (name, v) e ->
  value_of e name = Some v /\
  (forall c, In (name, c) shared -> member_of e v = Some c) /\
  (~ In name (map fst shared) -> member_of e v = Some name).
Proof.
  intros He Hin. pose proof enums_ok as H. rewrite forallb_forall in H.
  destruct (enum_members e (H e He) name v Hin) as [H1 H2]. split; [exact H1|]. rewrite H2. unfold canonical. split.
  - intros c Hc. unfold shared in Hc. cbn [In] in Hc. repeat destruct Hc as [Hc|Hc]; try (injection Hc as <- <-; reflexivity). destruct Hc.
  - intros Hn. destruct (find _ shared) as [p|] eqn:E; [|reflexivity]. exfalso. apply Hn.
    apply find_some in E as [E1 E2]. apply String.eqb_eq in E2. subst. now apply in_map.
Qed.

Lemma columns e name v : In e [LATime; LAWeather] -> In (name, v) e -> (N.to_nat v < length e)%nat.
Proof.
  intros He Hin.
  assert (H : forallb (fun e : list (string * N) => forallb (fun m : string * N => Nat.ltb (N.to_nat (snd m)) (length e)) e)
    [LATime; LAWeather] = true) by reflexivity.
  rewrite forallb_forall in H. specialize (H e He). rewrite forallb_forall in H. specialize (H _ Hin).
  now apply PeanoNat.Nat.ltb_lt in H.
Qed.

Lemma synchronize i n : nth_error natures i = Some n -> value_of Lead ("SYNCHRONIZE_" ++ n)%string = Some (N.of_nat i).
Proof.
  assert (H : map (fun n => value_of Lead ("SYNCHRONIZE_" ++ n)%string) natures = map (fun i => Some (N.of_nat i)) (seq 0 25))
    by (vm_compute; reflexivity).
  intros Hn. assert (L : (i < 25)%nat) by (change 25%nat with (length natures); now apply nth_error_Some; rewrite Hn).
  apply (map_nth_error (fun n => value_of Lead ("SYNCHRONIZE_" ++ n)%string)) in Hn. rewrite H in Hn.
  rewrite (map_nth_error (fun i => Some (N.of_nat i)) i (seq 0 25) (d := i)) in Hn; [apply (f_equal (fun o => match o with Some y => y | None => None end)) in Hn; symmetry; exact Hn|].
  assert (E : nth_error (seq 0 25) i = Some (nth i (seq 0 25) 0%nat)) by (apply nth_error_nth'; now rewrite seq_length).
  rewrite E, seq_nth by assumption. reflexivity.
Qed.
