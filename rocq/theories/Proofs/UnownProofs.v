(** Where the Unown letters are found in the bundled data. *)
From Coq Require Import NArith Arith Ascii String List Bool Lia.
From Verif Require Import Base.Word Model.Gen3State Model.Gen3Area Model.Gen3Wild Model.Encounter3
  Model.EncounterData3 Model.Bundled3 Spec.Gen3WildSpec Spec.Encounter3Spec.
From Verif Require Import Proofs.BundledLit3.
Import ListNotations.
Open Scope list_scope.
Open Scope N_scope.

Definition has_letter (n : N) (a : area3) : bool := existsb (fun s => s_species s =? 201 + 2048 * n) (a_land a).
(** The only position at which [p] holds. *)
Fixpoint only {A} (p : A -> bool) (l : list A) : option nat :=
  match l with
  | [] => None
  | x :: l' => if p x then (if existsb p l' then None else Some 0%nat) else option_map S (only p l')
  end.
Lemma only_ok {A} (p : A -> bool) l : forall i, only p l = Some i ->
  forall j x, nth_error l j = Some x -> (p x = true <-> j = i).
Proof.
  induction l as [|y l IH]; intros i H j x Hj; [destruct j; discriminate|]. cbn in H.
  destruct (p y) eqn:Ey.
  - destruct (existsb p l) eqn:El; [discriminate|]. injection H as <-. destruct j as [|j].
    + cbn in Hj. injection Hj as <-. tauto.
    + split; [|discriminate]. intros Hx. cbn in Hj. assert (existsb p l = true); [|congruence].
      apply existsb_exists. exists x. split; [now apply nth_error_In in Hj|exact Hx].
  - destruct (only p l) as [k|]; [|discriminate]. cbn in H. injection H as <-. destruct j as [|j].
    + cbn in Hj. injection Hj as <-. split; [congruence|discriminate].
    + cbn in Hj. rewrite (IH k eq_refl j x Hj). split; [intros ->; reflexivity|congruence].
Qed.
Lemma only_some {A} (p : A -> bool) l : forall i, only p l = Some i -> exists x, nth_error l i = Some x.
Proof.
  induction l as [|y l IH]; intros i H; [discriminate|]. cbn in H. destruct (p y).
  - destruct (existsb p l); [discriminate|]. injection H as <-. now exists y.
  - destruct (only p l) as [k|]; [|discriminate]. cbn in H. injection H as <-. now apply IH.
Qed.

Lemma ok_inj {A} (x y : A) : Ok x = Ok y -> x = y.
Proof. now injection 1. Qed.

Definition letters_okb (areas : list area3) : bool :=
  forallb (fun n => match only (has_letter n) areas with Some _ => true | None => false end)
    (map N.of_nat (seq 0 28)).
Lemma letters_ok areas : letters_okb areas = true -> forall n, n < 28 ->
  exists i a, nth_error areas i = Some a /\ forall j b, nth_error areas j = Some b ->
    ((exists s, In s (a_land b) /\ s_species s = 201 + 2048 * n) <-> j = i).
Proof.
  intros H n Hn. unfold letters_okb in H. rewrite forallb_forall in H.
  specialize (H n). destruct (only (has_letter n) areas) as [i|] eqn:E.
  - destruct (only_some _ _ _ E) as [a Ha]. exists i, a. split; [exact Ha|]. intros j b Hb.
    rewrite <- (only_ok _ _ _ E j b Hb). unfold has_letter. rewrite existsb_exists.
    split; intros (s & H1 & H2); exists s; (split; [exact H1|]); now apply N.eqb_eq.
  - discriminate H. apply in_map_iff. exists (N.to_nat n). split; [apply N2Nat.id|]. apply in_seq. lia.
Qed.
Lemma bundled_letters game ns areas : In game [Game_FIRE_RED; Game_LEAF_GREEN] -> bundled game = Ok (ns, areas) ->
  forall n, n < 28 -> exists i a, nth_error areas i = Some a /\ forall j b, nth_error areas j = Some b ->
    ((exists s, In s (a_land b) /\ s_species s = 201 + 2048 * n) <-> j = i).
Proof.
  intros Hg Hb. apply letters_ok. cbn [In] in Hg. destruct Hg as [<-|[<-|[]]].
  - rewrite bundled_fire_red in Hb. apply ok_inj in Hb. change areas with (snd (ns, areas)). rewrite <- Hb. vm_cast_no_check (eq_refl true).
  - rewrite bundled_leaf_green in Hb. apply ok_inj in Hb. change areas with (snd (ns, areas)). rewrite <- Hb. vm_cast_no_check (eq_refl true).
Qed.

Definition chamber_okb (na : list string * list area3) (c : string * string) : bool :=
  existsb (fun x => String.eqb (fst x) ("Seven Island Tanoby Ruins " ++ fst c ++ " Chamber") &&
      if list_eq_dec N.eq_dec (map s_species (a_land (snd x)))
           (map (fun l => 201 + 2048 * position l alphabet) (list_ascii_of_string (snd c))) then true else false)
    (combine (fst na) (snd na)).
Lemma combine_nth {A B} (x : A) (y : B) : forall l m, In (x, y) (combine l m) ->
  exists i, nth_error l i = Some x /\ nth_error m i = Some y.
Proof.
  induction l as [|a l IH]; intros m H; [destruct H|]. destruct m as [|b m]; [destruct H|].
  cbn in H. destruct H as [H|H].
  - injection H as -> ->. now exists 0%nat.
  - apply IH in H as [i H]. now exists (S i).
Qed.
Lemma chamber_ok na c : chamber_okb na c = true -> exists i a,
  nth_error (fst na) i = Some ("Seven Island Tanoby Ruins " ++ fst c ++ " Chamber")%string /\
  nth_error (snd na) i = Some a /\
  map s_species (a_land a) = map (fun l => 201 + 2048 * position l alphabet) (list_ascii_of_string (snd c)).
Proof.
  unfold chamber_okb. intros H. apply existsb_exists in H as ([n a] & H1 & H2). cbn [fst snd] in H2.
  apply andb_prop in H2 as [H2 H3]. apply String.eqb_eq in H2 as ->.
  destruct (combine_nth _ _ _ _ H1) as (i & Hi & Ha). exists i, a. split; [exact Hi|]. split; [exact Ha|].
  match type of H3 with (if ?d then _ else _) = _ => destruct d as [E|]; [exact E|discriminate] end.
Qed.
Lemma bundled_chambers game ns areas : In game [Game_FIRE_RED; Game_LEAF_GREEN] -> bundled game = Ok (ns, areas) ->
  forall c letters, In (c, letters) chamber_names -> exists i a,
    nth_error ns i = Some ("Seven Island Tanoby Ruins " ++ c ++ " Chamber")%string /\
    nth_error areas i = Some a /\
    map s_species (a_land a) = map (fun l => 201 + 2048 * position l alphabet) (list_ascii_of_string letters).
Proof.
  intros Hg Hb c letters Hc. apply (chamber_ok (ns, areas) (c, letters)).
  assert (G : forallb (chamber_okb (ns, areas)) chamber_names = true).
  { cbn [In] in Hg. destruct Hg as [<-|[<-|[]]].
    - rewrite bundled_fire_red in Hb. apply ok_inj in Hb. rewrite <- Hb. vm_cast_no_check (eq_refl true).
    - rewrite bundled_leaf_green in Hb. apply ok_inj in Hb. rewrite <- Hb. vm_cast_no_check (eq_refl true). }
  rewrite forallb_forall in G. now apply G.
Qed.
