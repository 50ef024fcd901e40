(** The bundled tables name every ability. *)
From Coq Require Import NArith Arith Ascii String List Bool Lia.
From Verif Require Import Base.Word Model.Gen3State Model.Gen3Area Model.Gen3Wild Model.Names Model.TextData
  Model.Encounter3 Model.EncounterData3 Model.Bundled3 Model.Gen3Csv
  Proofs.BundledLit3 Proofs.CsvProofs.
Import ListNotations.
Open Scope list_scope.
Open Scope N_scope.

Lemma bundled_abilities game : names_abilities (get_info_table_3 bundled_tables game).
Proof.
  assert (G : forall t, forallb (fun i => (pi_ability_1 i <? 299) && (pi_ability_2 i <? 299)) t = true -> names_abilities t).
  { intros t H. apply Forall_forall. intros i Hi. rewrite forallb_forall in H. apply H in Hi.
    apply andb_prop in Hi as [A B]. apply N.ltb_lt in A, B. auto. }
  rewrite tables_ok. unfold get_info_table_3.
  destruct (negb _); [apply G; vm_compute; reflexivity|].
  destruct (negb _); [apply G; vm_compute; reflexivity|].
  destruct (negb _); apply G; vm_compute; reflexivity.
Qed.
Lemma constant_names : CONSTANT_CASE_SPECIES_EN = species_names.
Proof. vm_cast_no_check (eq_refl species_names). Qed.
Lemma constants_distinct : distinct species_names = true.
Proof. vm_cast_no_check (eq_refl true). Qed.

Lemma index_first l : forall s from i, index l s from = Ok i ->
  exists k, i = from + N.of_nat k /\ nth_error l k = Some s.
Proof.
  induction l as [|x l IH]; intros s from i H; [discriminate|]. cbn in H.
  destruct (String.eqb_spec x s) as [->|_].
  - exists 0%nat. split; [|reflexivity]. injection H as <-. lia.
  - destruct (IH s (from + 1) i H) as (k & -> & E). exists (S k). split; [lia|exact E].
Qed.
Lemma index_found l : forall s from k, nth_error l k = Some s -> exists i, index l s from = Ok i.
Proof.
  induction l as [|x l IH]; intros s from k H; [destruct k; discriminate|]. cbn.
  destruct (String.eqb_spec x s) as [->|N]; [now exists from|].
  destruct k as [|k]; [cbn in H; congruence|]. exact (IH s (from + 1) k H).
Qed.
Lemma index_names k s : nth_error species_names k = Some s <-> index species_names s 0 = Ok (N.of_nat k).
Proof.
  split; intros H.
  - destruct (index_found _ s 0 k H) as (i & E). destruct (index_first _ _ _ _ E) as (j & -> & F).
    rewrite E. f_equal. apply (distinct_ok species_names (N.of_nat j) (N.of_nat k) s constants_distinct);
    unfold look; rewrite Nat2N.id; [now rewrite F|now rewrite H].
  - destruct (index_first _ _ _ _ H) as (j & E & F). now replace k with j by lia.
Qed.
Lemma names_index k c : index species_names c 0 = Ok (N.of_nat k) <->
  exists name, nth_error SPECIES_EN k = Some name /\ constant_case name = c.
Proof.
  rewrite <- index_names, <- constant_names. unfold CONSTANT_CASE_SPECIES_EN. rewrite nth_error_map.
  destruct (nth_error SPECIES_EN k) as [n|]; cbn; split.
  - intros H. injection H as H. now exists n.
  - intros (name & E & F). injection E as ->. now rewrite F.
  - discriminate.
  - intros (name & E & _). discriminate.
Qed.

Lemma constant_case_inj name name' : In name SPECIES_EN -> In name' SPECIES_EN ->
  constant_case name = constant_case name' -> name = name'.
Proof.
  intros H H' E. apply In_nth_error in H, H'. destruct H as (k & H), H' as (k' & H').
  assert (A : index species_names (constant_case name) 0 = Ok (N.of_nat k)) by (apply names_index; now exists name).
  assert (B : index species_names (constant_case name) 0 = Ok (N.of_nat k')) by (apply names_index; exists name'; split; [exact H'|symmetry; exact E]).
  rewrite A in B. assert (I : forall a b : N, Ok a = Ok b -> a = b) by (intros a b Q; injection Q; trivial).
  apply I, Nat2N.inj in B. subst k'. rewrite H in H'.
  assert (J : forall a b : string, Some a = Some b -> a = b) by (intros a b Q; injection Q; trivial).
  exact (J _ _ H').
Qed.

Fixpoint no_lower (s : string) : bool :=
  match s with
  | EmptyString => true
  | String c s' => negb ((97 <=? N_of_ascii c) && (N_of_ascii c <=? 122)) && no_lower s'
  end.
Lemma no_lower_get s : no_lower s = true -> forall n x, String.get n s = Some x -> ~ (97 <= N_of_ascii x <= 122).
Proof.
  induction s as [|c s IH]; intros H n x G; [discriminate|]. cbn [no_lower] in H. apply andb_prop in H as [H1 H2].
  destruct n as [|n]; [|exact (IH H2 n x G)]. cbn in G. injection G as <-. intros [A B].
  apply N.leb_le in A, B. rewrite A, B in H1. discriminate.
Qed.
Definition shape_ok (c : string) : bool :=
  prefix "SPECIES_" c && negb (String.eqb (substring 8 (String.length c - 8) c) "") && no_lower (substring 8 (String.length c - 8) c).
Lemma drop_prefix p : forall c, prefix p c = true ->
  c = (p ++ substring (String.length p) (String.length c - String.length p) c)%string.
Proof.
  induction p as [|x p IH]; intros c H.
  - cbn. rewrite Nat.sub_0_r. induction c as [|y c IHc]; [reflexivity|]. cbn. f_equal. apply IHc. now destruct c.
  - destruct c as [|y c]; [discriminate|]. cbn in H. destruct (ascii_dec x y) as [->|]; [|discriminate].
    cbn. f_equal. exact (IH c H).
Qed.
Lemma constants_shape : forallb shape_ok species_names = true.
Proof. vm_cast_no_check (eq_refl true). Qed.
Lemma constant_shape c : In c CONSTANT_CASE_SPECIES_EN ->
  exists rest, c = ("SPECIES_" ++ rest)%string /\ rest <> ""%string /\
    forall n x, String.get n rest = Some x -> ~ (97 <= N_of_ascii x <= 122).
Proof.
  rewrite constant_names. intros H. pose proof constants_shape as G. rewrite forallb_forall in G. apply G in H.
  unfold shape_ok in H. apply andb_prop in H as [H H3]. apply andb_prop in H as [H1 H2].
  exists (substring 8 (String.length c - 8) c). split; [exact (drop_prefix "SPECIES_" c H1)|]. split.
  - intros E. rewrite E in H2. discriminate.
  - exact (no_lower_get _ H3).
Qed.
