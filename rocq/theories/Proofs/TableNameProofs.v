(** The names of encounter tables: the trie is checked by evaluation, one step of the hash
    for each of its characters. *)
From Coq Require Import NArith ZArith String List Bool Lia Strings.Byte MSets.MSetPositive.
From Verif Require Import Base.Word Model.Flatbuf Model.FbsLA Model.FNV Model.Trie Model.NameTrie Model.TableNames Model.BundledNames
  Model.BundledLA Model.BundledSpawn Spec.FbsLASpec Spec.TableNameSpec Spec.SpawnSpec Proofs.BundledProofsLA Proofs.SpawnProofs.
Import ListNotations.
Open Scope list_scope.
Open Scope N_scope.

(** ** Hashes *)
(** One character, by a shift and a small product. *)
Definition step (h c : N) : N := let x := N.lxor h (w64 c) in N.land (N.shiftl x 40 + 435 * x) 18446744073709551615.
Fixpoint hashes (h : N) (t : name_trie) : bool :=
  match t with
  | O => true
  | C c key sub next =>
      let h' := step h (Byte.to_N c) in
      match key with Some k => word_number k =? h' | None => true end && hashes h' sub && hashes h next
  end.
Lemma fnv_app s c : fnv1a_64 (s ++ [c]) = step (fnv1a_64 s) c.
Proof. unfold fnv1a_64. 
  rewrite fold_left_app. cbn [fold_left]. unfold step. cbv zeta.
  change 18446744073709551615 with (N.ones 64). rewrite N.land_ones, N.shiftl_mul_pow2. unfold w64.
  change (2 ^ 64) with 18446744073709551616. f_equal. change (2 ^ 40) with 1099511627776. lia.
Qed.
Lemma hashes_ok t : forall prefix, hashes (fnv1a_64 prefix) t = true ->
  forall k name, In (k, name) (items prefix t) -> fnv1a_64 name = k.
Proof.
  induction t as [|c key sub IHs next IHn]; intros prefix H k name Hin; [destruct Hin|].
  cbn [hashes] in H. cbv zeta in H. rewrite <- fnv_app in H. apply andb_prop in H as [H H3]. apply andb_prop in H as [H1 H2].
  cbn [items] in Hin. cbv zeta in Hin. apply in_app_or in Hin as [Hin|Hin].
  - destruct key as [w|]; [|destruct Hin]. destruct Hin as [Hin|[]]. apply N.eqb_eq in H1.
    pose proof (f_equal fst Hin) as E1. pose proof (f_equal snd Hin) as E2. cbn [fst snd] in E1, E2.
    rewrite <- E1, <- E2. symmetry. exact H1.
  - apply in_app_or in Hin as [Hin|Hin]; [exact (IHs _ H2 _ _ Hin)|exact (IHn _ H3 _ _ Hin)].
Qed.
Lemma table_names_hash : hashes 0xCBF29CE484222645 table_names = true.
Proof. vm_cast_no_check (eq_refl true). Qed.
Lemma names_hash k name : In (k, name) ENCOUNTER_TABLE_NAMES_LA -> fnv1a_64 name = k.
Proof. exact (hashes_ok table_names [] table_names_hash k name). Qed.

(** ** Finding a name *)
Fixpoint find (t : name_trie) (c : N) (s : list N) : option N :=
  match t with
  | O => None
  | C c' key sub next =>
      if Byte.to_N c' =? c then
        match s with
        | [] => match key with Some k => Some (word_number k) | None => None end
        | d :: s' => find sub d s'
        end
      else find next c s
  end.
Lemma find_in t : forall prefix c s k, find t c s = Some k -> In (k, prefix ++ c :: s) (items prefix t).
Proof.
  induction t as [|c' key sub IHs next IHn]; intros prefix c s k H; [discriminate|].
  cbn [find] in H. cbn [items]. cbv zeta. destruct (N.eqb_spec (Byte.to_N c') c) as [<-|_].
  - destruct s as [|d s].
    + destruct key as [w|]; [|discriminate]. apply in_or_app. left. left.
      exact (f_equal (fun k => (k, prefix ++ [Byte.to_N c'])) (f_equal (fun o => match o with Some x => x | None => 0 end) H)).
    + apply in_or_app. right. apply in_or_app. left. apply (IHs (prefix ++ [Byte.to_N c'])) in H.
      rewrite <- app_assoc in H. exact H.
  - apply in_or_app. right. apply in_or_app. right. now apply IHn.
Qed.
Fixpoint count (t : name_trie) : N :=
  match t with O => 0 | C _ key sub next => match key with Some _ => 1 | None => 0 end + count sub + count next end.
Lemma count_ok t : forall prefix, N.of_nat (length (items prefix t)) = count t.
Proof.
  induction t as [|c key sub IHs next IHn]; intros prefix; [reflexivity|]. cbn [items count]. cbv zeta.
  rewrite !app_length, !Nat2N.inj_add, IHs, IHn. destruct key; cbn [length]; lia.
Qed.

(** ** All names of the rule *)
Definition upto (n : nat) : list N := map N.of_nat (seq 0 n).
Lemma in_upto n i : i < N.of_nat n <-> In i (upto n).
Proof.
  unfold upto. rewrite in_map_iff. split.
  - intros H. exists (N.to_nat i). split; [apply N2Nat.id|]. apply in_seq. lia.
  - intros (j & <- & H). apply in_seq in H. lia.
Qed.
Definition all_names : list (list N) :=
  flat_map (fun p => flat_map (fun k => map (fun i => p ++ under ++ k ++ under ++ padded i) (upto 150)) kinds) prefixes ++
  flat_map (fun a => map (fun i => codes "sky_area" ++ [48 + a] ++ under ++ padded i) (upto 10)) (upto 6) ++
  map codes ["eve_ex_16_b"; "eve_ex_17_b"; "eve_ex_18_b"]%string ++
  flat_map (fun g => map (fun i => codes "gmk_" ++ g ++ under ++ padded i) (upto 100)) (tl gimmicks) ++
  flat_map (fun g => flat_map (fun i =>
    flat_map (fun j =>
      (codes "gmk_" ++ g ++ under ++ padded i ++ under ++ padded j) ::
      map (fun k => codes "gmk_" ++ g ++ under ++ padded i ++ under ++ padded j ++ under ++ padded k) (upto 3)) (upto 3))
    (upto 100)) gimmicks.
Lemma all_names_ok s : In s all_names <-> table_name s.
Proof.
  unfold all_names. rewrite !in_app_iff. split.
  - intros [H|[H|[H|[H|H]]]].
    + apply in_flat_map in H as (p & Hp & H). apply in_flat_map in H as (k & Hk & H). apply in_map_iff in H as (i & <- & H).
      apply in_upto in H. now apply Numbered.
    + apply in_flat_map in H as (a & Ha & H). apply in_map_iff in H as (i & <- & H). apply in_upto in H, Ha. now apply Sky.
    + apply in_map_iff in H as (x & <- & H). now apply Event.
    + apply in_flat_map in H as (g & Hg & H). apply in_map_iff in H as (i & <- & H). apply in_upto in H.
      apply Gimmick; [now right|exact H].
    + apply in_flat_map in H as (g & Hg & H). apply in_flat_map in H as (i & Hi & H). apply in_upto in Hi.
      apply in_flat_map in H as (j & Hj & H). apply in_upto in Hj.
      destruct H as [<-|H]; [now apply Gimmick2|]. apply in_map_iff in H as (k & <- & H). apply in_upto in H. now apply Gimmick3.
  - intros [p k i Hp Hk Hi|a i Ha Hi|x Hx|g i Hg Hi|g i j Hg Hi Hj|g i j k Hg Hi Hj Hk].
    + left. apply in_flat_map. exists p. split; [exact Hp|]. apply in_flat_map. exists k. split; [exact Hk|].
      apply in_map_iff. exists i. split; [reflexivity|]. now apply (in_upto 150).
    + right. left. apply in_flat_map. exists a. split; [now apply (in_upto 6)|]. apply in_map_iff. exists i.
      split; [reflexivity|]. now apply (in_upto 10).
    + right. right. left. now apply in_map.
    + destruct Hg as [<-|Hg].
      * left. apply in_flat_map. exists (codes "gmk"). split; [cbn; tauto|]. apply in_flat_map. exists (codes "no").
        split; [cbn; tauto|]. apply in_map_iff. exists i. split; [reflexivity|]. apply (in_upto 150). lia.
      * right. right. right. left. apply in_flat_map. exists g. split; [exact Hg|]. apply in_map_iff. exists i.
        split; [reflexivity|]. now apply (in_upto 100).
    + right. right. right. right. apply in_flat_map. exists g. split; [exact Hg|]. apply in_flat_map. exists i.
      split; [now apply (in_upto 100)|]. apply in_flat_map. exists j. split; [now apply (in_upto 3)|]. now left.
    + right. right. right. right. apply in_flat_map. exists g. split; [exact Hg|]. apply in_flat_map. exists i.
      split; [now apply (in_upto 100)|]. apply in_flat_map. exists j. split; [now apply (in_upto 3)|]. right.
      apply in_map_iff. exists k. split; [reflexivity|]. now apply (in_upto 3).
Qed.
Lemma find_names c s k : find table_names c s = Some k -> In (k, c :: s) ENCOUNTER_TABLE_NAMES_LA.
Proof. exact (find_in table_names [] c s k). Qed.
Definition found (s : list N) : option Z :=
  match s with [] => None | c :: s' => option_map Z.of_N (find table_names c s') end.
Lemma all_found_once : distinct (map found all_names) PositiveSet.empty = true.
Proof. vm_cast_no_check (eq_refl true). Qed.
Lemma same_count : N.of_nat (length all_names) = count table_names.
Proof. vm_cast_no_check (eq_refl (count table_names)). Qed.

Lemma found_ok s : In s all_names -> In (fnv1a_64 s, s) ENCOUNTER_TABLE_NAMES_LA.
Proof.
  intros H. destruct (distinct_ok _ all_found_once) as [_ F]. destruct (F (found s) (in_map found _ _ H)) as [z E].
  destruct s as [|c s]; [discriminate|]. cbn [found] in E.
  destruct (find table_names c s) as [k|] eqn:Ek; [|discriminate].
  apply find_names in Ek.
  rewrite (names_hash k _ Ek). exact Ek.
Qed.
Lemma all_names_NoDup : NoDup all_names.
Proof. destruct (distinct_ok _ all_found_once) as [D _]. exact (NoDup_map_inv found _ D). Qed.
Lemma lengths : length (map snd ENCOUNTER_TABLE_NAMES_LA) = length all_names.
Proof.
  rewrite map_length. apply Nat2N.inj. rewrite same_count. exact (count_ok table_names []).
Qed.
Lemma names_incl : incl all_names (map snd ENCOUNTER_TABLE_NAMES_LA).
Proof. intros s H. apply in_map_iff. exists (fnv1a_64 s, s). split; [reflexivity|now apply found_ok]. Qed.
Lemma names_rule s : (exists k, In (k, s) ENCOUNTER_TABLE_NAMES_LA) <-> table_name s.
Proof.
  rewrite <- all_names_ok. split.
  - intros (k & H). apply (NoDup_length_incl all_names_NoDup (l' := map snd ENCOUNTER_TABLE_NAMES_LA)).
    + rewrite lengths. apply le_n.
    + exact names_incl.
    + apply in_map_iff. exists (k, s). now split.
  - intros H. exists (fnv1a_64 s). now apply found_ok.
Qed.
Lemma names_NoDup : NoDup (map snd ENCOUNTER_TABLE_NAMES_LA).
Proof.
  apply (NoDup_incl_NoDup all_names_NoDup); [rewrite lengths; apply le_n|exact names_incl].
Qed.
(** Names apart have keys apart. *)
Lemma found_hash s : In s all_names -> found s = Some (Z.of_N (fnv1a_64 s)).
Proof.
  intros H. destruct (distinct_ok _ all_found_once) as [_ F]. destruct (F (found s) (in_map found _ _ H)) as [z E].
  destruct s as [|c s]; [discriminate|]. cbn [found] in *.
  destruct (find table_names c s) as [k|] eqn:Ek; [|discriminate]. cbn [option_map].
  apply find_names in Ek.
  now rewrite (names_hash k _ Ek).
Qed.
Lemma hashes_apart s s' : table_name s -> table_name s' -> fnv1a_64 s = fnv1a_64 s' -> s = s'.
Proof.
  rewrite <- !all_names_ok. intros H H' E. destruct (distinct_ok _ all_found_once) as [D _].
  apply (map_NoDup_inj found all_names s s' D H H'). rewrite !found_hash by assumption. now rewrite E.
Qed.
Lemma names_is_dict : is_dict ENCOUNTER_TABLE_NAMES_LA.
Proof.
  unfold is_dict. pose proof names_NoDup as D.
  assert (H : forall x, In x ENCOUNTER_TABLE_NAMES_LA -> In x ENCOUNTER_TABLE_NAMES_LA) by auto. revert D H.
  generalize ENCOUNTER_TABLE_NAMES_LA at 1 2 4. induction l as [|[k s] l IH]; intros D H; [constructor|].
  cbn [map] in *. inversion D as [|? ? N D']; subst. constructor.
  - intros Hin. apply in_map_iff in Hin as ([k' s'] & E & Hin). cbn [fst snd] in *.
    apply N. apply in_map_iff. exists (k', s'). split; [|exact Hin]. cbn [snd].
    pose proof (H _ (or_introl eq_refl)) as A. pose proof (H _ (or_intror Hin)) as B.
    apply hashes_apart.
    + apply names_rule. now exists k'.
    + apply names_rule. now exists k.
    + rewrite (names_hash _ _ A), (names_hash _ _ B). exact E.
  - apply IH; [exact D'|]. intros x Hx. apply H. now right.
Qed.

(** ** The tables of spawners *)
Definition known : PositiveSet.t := pset (map key (map found all_names)).
Lemma known_ok p : PositiveSet.mem p known = true -> In p (map key (map found all_names)).
Proof. exact (proj1 (pset_in _ p)). Qed.
Definition named (s : PositiveSet.t) (x : spawner) : bool :=
  among (sp_encounter_table x) lottery_hashes ||
  positive_id (sp_encounter_table x) && PositiveSet.mem (key (sp_encounter_table x)) s.
Lemma named_ok set x : (forall p, PositiveSet.mem p set = true -> In p (map key (map found all_names))) -> named set x = true ->
  In (sp_encounter_table x) lottery_hashes \/
  exists name, In name all_names /\ sp_encounter_table x = Some (Z.of_N (fnv1a_64 name)).
Proof.
  intros K H. unfold named in H. apply orb_prop in H as [H|H]; [left; now apply among_ok|right].
  apply andb_prop in H as [H1 H2]. apply K in H2. clear K. apply in_map_iff in H2 as (y & E & H2).
  pose proof H2 as H3. apply in_map_iff in H2 as (name & E' & H2). exists name. split; [exact H2|].
  rewrite (found_hash _ H2) in E'. rewrite E'. apply key_inj; [exact H1| |symmetry; exact E].
  destruct (distinct_aux _ _ all_found_once) as (_ & P & _). rewrite Forall_forall in P. exact (P y H3).
Qed.
Lemma spawners_known : let s := known in forallb (fun k => forallb (named s) (spawners_of k)) map_areas = true.
Proof. vm_cast_no_check (eq_refl true). Qed.
Lemma spawner_known k s : In k map_areas -> In s (spawners_of k) -> named known s = true.
Proof.
  intros Hk Hs. pose proof (proj1 (forallb_forall _ map_areas) spawners_known k Hk) as C.
  exact (proj1 (forallb_forall (named known) (spawners_of k)) C s Hs).
Qed.
Lemma spawner_named k s : In k map_areas -> spawner_of_map k s -> table_of_map k (sp_encounter_table s) ->
  exists id name, sp_encounter_table s = Some (Z.of_N id) /\ In (id, name) ENCOUNTER_TABLE_NAMES_LA.
Proof.
  intros Hk Hs Ht. destruct (bundled_tables k s Hk Hs) as [[_ Hl]|(_ & X & _)]; [|exact (False_ind _ (X Ht))].
  apply (of_map k s Hk) in Hs. destruct (named_ok known s known_ok (spawner_known k s Hk Hs)) as [H|(name & H & E)].
  - exfalso. apply in_map_iff in H as (lo & E & Hlo). apply (Hl lo), lottery_found. split; [exact Hlo|exact E].
  - exists (fnv1a_64 name), name. split; [exact E|exact (found_ok name H)].
Qed.
