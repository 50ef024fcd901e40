(** Facts about the bundled spawners and massive outbreaks, by evaluation. *)
From Coq Require Import NArith ZArith List Bool Lia MSets.MSetPositive.
From Verif Require Import Base.Word Model.Flatbuf Model.FbsLA Model.EncounterLA Model.Trie Model.BundledLA Model.BundledSpawn
  Model.LaSpawn1 Model.LaSpawn2 Model.LaSpawn3 Model.LaSpawn4 Model.LaSpawn5 Model.LaOutbreakGroup Model.LaOutbreakLottery
  Spec.FbsLASpec Spec.SpawnSpec Proofs.FbsLAProofs Proofs.FbsFast Proofs.SpawnFast Proofs.LaLitCommon Proofs.BundledProofsLA
  Proofs.SpawnLit1 Proofs.SpawnLit2 Proofs.SpawnLit3 Proofs.SpawnLit4 Proofs.SpawnLit5 Proofs.SpawnLitOutbreak.
Import ListNotations.
Open Scope N_scope.

Definition spawners_of (k : N) : list spawner :=
  match k with 1 => spawners_1 | 2 => spawners_2 | 3 => spawners_3 | 4 => spawners_4 | 5 => spawners_5 | _ => [] end.

(** ** Loading *)
Lemma one_spawner_file t size l :
  froot (trie_get t size) (fspawner (trie_get t size)) = Ok l ->
  spawner_table (file_bytes t size) = Ok (l, dict_by opt_eqb sp_id l, dict_by opt_eqb sp_group l).
Proof.
  intros H. rewrite (spawner_table_ok _ _ (trie_get_ok t size)), H. cbn [rmap]. exact eq_refl.
Qed.
Lemma spawners_loaded k : In k map_areas -> spawner_information_la k =
  Ok (spawners_of k, dict_by opt_eqb sp_id (spawners_of k), dict_by opt_eqb sp_group (spawners_of k)).
Proof.
  revert k. apply map_cases.
  - exact (one_spawner_file _ _ _ spawners_1_ok).
  - exact (one_spawner_file _ _ _ spawners_2_ok).
  - exact (one_spawner_file _ _ _ spawners_3_ok).
  - exact (one_spawner_file _ _ _ spawners_4_ok).
  - exact (one_spawner_file _ _ _ spawners_5_ok).
Qed.
Lemma groups_loaded : NHO_GROUP_TABLE_LA = Ok (groups, dict_by opt_eqb gr_hash groups).
Proof.
  unfold NHO_GROUP_TABLE_LA.
  rewrite (group_table_ok _ _ (trie_get_ok outbreak_group_trie outbreak_group_size)), groups_ok. cbn [rmap]. exact eq_refl.
Qed.
Lemma lotteries_loaded : NHO_LOTTERY_TABLE_LA = Ok (lotteries, dict_by opt_eqb lo_hash lotteries).
Proof.
  unfold NHO_LOTTERY_TABLE_LA.
  rewrite (lottery_table_ok _ _ (trie_get_ok outbreak_lottery_trie outbreak_lottery_size)), lotteries_ok. cbn [rmap]. exact eq_refl.
Qed.

(** ** Sets of ids *)
Definition key (x : option Z) : positive := match x with Some (Zpos p) => p | _ => 1%positive end.
Definition positive_id (x : option Z) : bool := match x with Some (Zpos _) => true | _ => false end.
Definition pset (l : list positive) : PositiveSet.t := fold_right PositiveSet.add PositiveSet.empty l.
Lemma pset_in l p : PositiveSet.mem p (pset l) = true <-> In p l.
Proof.
  change (PositiveSet.In p (pset l) <-> In p l). induction l as [|q l IH]; cbn [pset fold_right In].
  - split; [|intros []]. intros H. exact (False_ind _ (PositiveSet.empty_spec H)).
  - fold (pset l). rewrite PositiveSet.add_spec, IH. split; intros [H|H]; auto.
Qed.
Lemma key_inj a b : positive_id a = true -> positive_id b = true -> key a = key b -> a = b.
Proof. destruct a as [[|a|a]|]; try discriminate. destruct b as [[|b|b]|]; try discriminate. intros _ _ H. cbn in H. now rewrite H. Qed.
Fixpoint distinct (l : list (option Z)) (s : PositiveSet.t) : bool :=
  match l with
  | [] => true
  | x :: l' => positive_id x && negb (PositiveSet.mem (key x) s) && distinct l' (PositiveSet.add (key x) s)
  end.
Lemma distinct_aux l : forall s, distinct l s = true ->
  NoDup l /\ Forall (fun x => positive_id x = true) l /\ (forall x, In x l -> ~ PositiveSet.In (key x) s).
Proof.
  induction l as [|x l IH]; intros s H; [repeat constructor; now intros x []|].
  cbn [distinct] in H. apply andb_prop in H as [H H3]. apply andb_prop in H as [H1 H2].
  apply IH in H3 as (D & P & O). apply negb_true_iff in H2.
  assert (Hs : forall y, In y l -> ~ PositiveSet.In (key y) s).
  { intros y Hy X. apply (O y Hy). apply PositiveSet.add_spec. now right. }
  split; [|split].
  - constructor; [|exact D]. intros Hx. apply (O x Hx). apply PositiveSet.add_spec. now left.
  - now constructor.
  - intros y [<-|Hy]; [|now apply Hs]. unfold PositiveSet.In. rewrite H2. discriminate.
Qed.
Lemma distinct_ok l : distinct l PositiveSet.empty = true -> NoDup l /\ forall x, In x l -> exists z, x = Some z.
Proof.
  intros H. apply distinct_aux in H as (D & P & _). split; [exact D|]. intros x Hx.
  rewrite Forall_forall in P. apply P in Hx. destruct x as [z|]; [now exists z|discriminate].
Qed.
Lemma map_NoDup_inj {A B} (f : A -> B) l a b : NoDup (map f l) -> In a l -> In b l -> f a = f b -> a = b.
Proof.
  induction l as [|x l IH]; cbn [map In]; intros D Ha Hb E; [easy|]. inversion D as [|? ? N D']; subst.
  destruct Ha as [->|Ha], Hb as [->|Hb]; auto.
  - exfalso. apply N. rewrite E. now apply in_map.
  - exfalso. apply N. rewrite <- E. now apply in_map.
Qed.
(** A lookup by distinct keys holds every element. *)
Lemma all_found {V} (f : V -> option Z) l : NoDup (map f l) ->
  forall x v, In (x, v) (dict_by opt_eqb f l) <-> In v l /\ f v = x.
Proof.
  intros D x v.
  destruct (by_looks_up opt_eqb f (fun v k => f v = k) l opt_eq_ok (fun v k => conj (fun h => h) (fun h => h))) as [_ H].
  rewrite H. split.
  - intros (b & a & -> & E & _). split; [apply in_elt|exact E].
  - intros [Hv E]. apply in_split in Hv as (b & a & ->). exists b, a. split; [reflexivity|]. split; [exact E|].
    apply Forall_forall. intros y Hy X. rewrite <- E in X. rewrite map_app in D. cbn [map] in D.
    apply NoDup_remove_2 in D. apply D. apply in_or_app. right. rewrite <- X. now apply in_map.
Qed.

(** ** Spawners *)
Lemma ids_distinct k : In k map_areas -> distinct (map sp_id (spawners_of k)) PositiveSet.empty = true.
Proof. revert k. apply map_cases; vm_cast_no_check (eq_refl true). Qed.
Definition every_spawner : list (N * spawner) := flat_map (fun k => map (pair k) (spawners_of k)) map_areas.
Lemma groups_distinct : distinct (map (fun x => sp_group (snd x)) every_spawner) PositiveSet.empty = true.
Proof. vm_cast_no_check (eq_refl true). Qed.
Lemma in_every k s : In k map_areas -> In s (spawners_of k) -> In (k, s) every_spawner.
Proof. intros Hk Hs. apply in_flat_map. exists k. split; [exact Hk|]. now apply in_map. Qed.
Lemma map_groups_NoDup k : In k map_areas -> NoDup (map sp_group (spawners_of k)).
Proof.
  intros Hk. destruct (distinct_ok _ groups_distinct) as [D _]. unfold every_spawner in D.
  revert D. generalize map_areas Hk. induction l as [|j l IH]; [easy|]. cbn [flat_map]. rewrite map_app, map_map.
  intros H D. cbn [snd] in D.
  assert (E : forall (a b : list (option Z)), NoDup (a ++ b) -> NoDup a /\ NoDup b).
  { clear. induction a as [|x a IH]; cbn [app]; intros b D; [split; [constructor|exact D]|].
    inversion D as [|? ? N D']; subst. apply IH in D' as [A B]. split; [|exact B]. constructor; [|exact A].
    intros X. apply N, in_or_app. now left. }
  apply E in D as [A B]. destruct H as [->|H]; [exact A|now apply IH].
Qed.
Definition saneb (s : spawner) : bool :=
  match sp_coordinates s with Some (mkVec3 (Some _) (Some _) (Some _)) => true | _ => false end &&
  match sp_min_count s, sp_max_count s with
  | Some lo, Some hi => (1 <=? lo)%Z && (lo <=? hi)%Z && (hi <=? 4)%Z
  | _, _ => false
  end.
Lemma saneb_ok s : saneb s = true -> spawner_sane s.
Proof.
  unfold saneb, spawner_sane. intros H. apply andb_prop in H as [H1 H2]. split.
  - destruct (sp_coordinates s) as [[[x|] [y|] [z|]]|]; try discriminate. eexists. split; [reflexivity|]. now exists x, y, z.
  - destruct (sp_min_count s) as [lo|]; [|discriminate]. destruct (sp_max_count s) as [hi|]; [|discriminate].
    exists lo, hi. apply andb_prop in H2 as [H2 H3]. apply andb_prop in H2 as [H2 H4]. repeat split; lia.
Qed.
Definition table_keys (k : N) : list positive := map (fun x => match fst x with Npos p => p | 0 => 1%positive end) (areas_of k).
Definition no_zero (k : N) : bool := forallb (fun x => match fst x with Npos _ => true | 0 => false end) (areas_of k).
Definition in_map_tables (s : PositiveSet.t) (x : option Z) : bool := positive_id x && PositiveSet.mem (key x) s.
Lemma no_zeros k : In k map_areas -> no_zero k = true.
Proof. revert k. apply map_cases; vm_cast_no_check (eq_refl true). Qed.
Lemma in_map_tables_ok k x : In k map_areas -> in_map_tables (pset (table_keys k)) x = true <-> table_of_map k x.
Proof.
  intros Hk. unfold in_map_tables, table_of_map. split.
  - intros H. apply andb_prop in H as [H1 H2]. apply pset_in in H2. apply in_map_iff in H2 as ([n a] & E & Hin).
    exists (areas_of k), n, a. split; [exact (information k Hk)|]. split; [exact Hin|].
    pose proof (no_zeros k Hk) as Z. unfold no_zero in Z. rewrite forallb_forall in Z. apply Z in Hin. cbn [fst] in *.
    destruct n as [|p]; [discriminate|]. destruct x as [[|q|q]|]; try discriminate. cbn in E. now rewrite E.
  - intros (d & n & a & E & Hin & ->). rewrite (information k Hk) in E.
    assert (X : areas_of k = d) by exact (f_equal (fun r => match r with Ok d => d | Raise _ => [] end) E).
    rewrite <- X in Hin. pose proof (no_zeros k Hk) as Z. unfold no_zero in Z. rewrite forallb_forall in Z.
    pose proof (Z _ Hin) as Z'. cbn [fst] in Z'. destruct n as [|p]; [discriminate|]. cbn [Z.of_N positive_id key andb].
    apply pset_in. apply in_map_iff. exists (Npos p, a). now split.
Qed.
Definition lottery_hashes : list (option Z) := map lo_hash lotteries.
Definition isb (b : option bool) : bool := match b with Some true => true | _ => false end.
Definition among (x : option Z) (l : list (option Z)) : bool := existsb (opt_eqb x) l.
Lemma among_ok x l : among x l = true <-> In x l.
Proof.
  unfold among. rewrite existsb_exists. split.
  - intros (y & H & E). apply opt_eq_ok in E. now rewrite E.
  - intros H. exists x. split; [exact H|]. now apply opt_eq_ok.
Qed.
Definition opt_dec (a b : option Z) : {a = b} + {a <> b}.
Proof. repeat decide equality. Defined.
Definition spawner_check (tables : PositiveSet.t) (s : spawner) : bool :=
  saneb s &&
  (if among (sp_encounter_table s) lottery_hashes
   then isb (sp_mass_outbreak s) && negb (in_map_tables tables (sp_encounter_table s))
   else in_map_tables tables (sp_encounter_table s)).
Lemma spawners_checked k : In k map_areas -> let t := pset (table_keys k) in forallb (spawner_check t) (spawners_of k) = true.
Proof. revert k. apply map_cases; vm_cast_no_check (eq_refl true). Qed.

(** ** Outbreaks *)
Lemma group_hashes_distinct : distinct (map gr_hash groups) PositiveSet.empty = true.
Proof. vm_cast_no_check (eq_refl true). Qed.
Lemma lottery_hashes_distinct : distinct (map lo_hash lotteries) PositiveSet.empty = true.
Proof. vm_cast_no_check (eq_refl true). Qed.
(** The groups that fit the map, by the set of its tables. *)
Definition group_fits (tables : PositiveSet.t) (g : group8a) : bool :=
  in_map_tables tables (gr_first g) && forallb (in_map_tables tables) (gr_waves g) && negb (length (gr_waves g) =? 0)%nat.
Definition uses (k : N) (h : option Z) : bool := existsb (fun s => opt_eqb (sp_encounter_table s) h) (spawners_of k).
Definition drawn (lo : lottery) : list (option Z) := lo_common lo ++ lo_rare_1 lo ++ lo_rare_2 lo.
Definition real (x : option Z) : bool := negb (opt_eqb x no_group).
Definition lottery_check (fitting : list (option Z)) (lo : lottery) : bool :=
  forallb (fun x => among x fitting) (lo_common lo) &&
  forallb (fun x => if real x then among x fitting else true) (lo_rare_1 lo) &&
  forallb (fun x => if real x then among x fitting else true) (lo_rare_2 lo).
Definition map_lotteries_check (k : N) : bool :=
  let tables := pset (table_keys k) in
  let fitting := map gr_hash (filter (group_fits tables) groups) in
  forallb (fun lo => if uses k (lo_hash lo) then lottery_check fitting lo else true) lotteries.
Lemma lotteries_checked k : In k map_areas -> map_lotteries_check k = true.
Proof. revert k. apply map_cases; vm_cast_no_check (eq_refl true). Qed.
Lemma lotteries_used : forallb (fun lo => existsb (fun k => uses k (lo_hash lo)) map_areas) lotteries = true.
Proof. vm_cast_no_check (eq_refl true). Qed.
Lemma groups_used : forallb (fun g => existsb (fun lo => among (gr_hash g) (drawn lo)) lotteries) groups = true.
Proof. vm_cast_no_check (eq_refl true). Qed.

(** ** The statements of C81 *)
Lemma loaded_is {A B C} (x : res (A * B * C)) a b c a' b' c' : x = Ok (a, b, c) -> x = Ok (a', b', c') -> a = a' /\ b = b' /\ c = c'.
Proof. intros -> H. injection H as -> -> ->. now split. Qed.
Lemma loaded_is2 {A B} (x : res (A * B)) a b a' b' : x = Ok (a, b) -> x = Ok (a', b') -> a = a' /\ b = b'.
Proof. intros -> H. injection H as -> ->. now split. Qed.
Lemma of_map k s : In k map_areas -> spawner_of_map k s <-> In s (spawners_of k).
Proof.
  intros Hk. split.
  - intros (l & a & b & E & H). destruct (loaded_is _ _ _ _ _ _ _ (spawners_loaded k Hk) E) as (-> & _). exact H.
  - intros H. eexists _, _, _. split; [exact (spawners_loaded k Hk)|exact H].
Qed.
Lemma lottery_found h lo : lottery_under h lo <-> In lo lotteries /\ lo_hash lo = h.
Proof.
  destruct (distinct_ok _ lottery_hashes_distinct) as [D _]. rewrite <- (all_found lo_hash lotteries D). split.
  - intros (l & d & E & H). destruct (loaded_is2 _ _ _ _ _ lotteries_loaded E) as (_ & <-). exact H.
  - intros H. eexists _, _. split; [exact lotteries_loaded|exact H].
Qed.
Lemma group_found h g : group_under h g <-> In g groups /\ gr_hash g = h.
Proof.
  destruct (distinct_ok _ group_hashes_distinct) as [D _]. rewrite <- (all_found gr_hash groups D). split.
  - intros (l & d & E & H). destruct (loaded_is2 _ _ _ _ _ groups_loaded E) as (_ & <-). exact H.
  - intros H. eexists _, _. split; [exact groups_loaded|exact H].
Qed.
Lemma some_spawner k : In k map_areas -> match spawners_of k with [] => false | _ => true end = true.
Proof. revert k. apply map_cases; vm_cast_no_check (eq_refl true). Qed.
Lemma bundled_spawners k : In k map_areas -> exists spawners by_id by_group,
  spawner_information_la k = Ok (spawners, by_id, by_group) /\ spawners <> [] /\
  is_dict by_id /\ (forall id s, In (id, s) by_id <-> In s spawners /\ sp_id s = id) /\
  is_dict by_group /\ (forall id s, In (id, s) by_group <-> In s spawners /\ sp_group s = id) /\
  forall s, In s spawners -> (exists id, sp_id s = Some id) /\ (exists id, sp_group s = Some id) /\ spawner_sane s.
Proof.
  intros Hk. eexists _, _, _. split; [exact (spawners_loaded k Hk)|].
  destruct (distinct_ok _ (ids_distinct k Hk)) as [D1 S1]. destruct (distinct_ok _ groups_distinct) as [_ S2].
  pose proof (map_groups_NoDup k Hk) as D2.
  split; [|split; [exact (by_is_dict _ _ _ opt_eq_ok)|split; [exact (all_found _ _ D1)|
    split; [exact (by_is_dict _ _ _ opt_eq_ok)|split; [exact (all_found _ _ D2)|]]]]].
  - pose proof (some_spawner k Hk) as X. intros E. rewrite E in X. discriminate X.
  - intros s Hs. split; [apply S1; now apply in_map|]. split.
    + apply S2. apply in_map_iff. exists (k, s). split; [reflexivity|now apply in_every].
    + pose proof (spawners_checked k Hk) as C. cbv zeta in C. rewrite forallb_forall in C. apply C in Hs.
      apply andb_prop in Hs as [Hs _]. now apply saneb_ok.
Qed.
Lemma bundled_groups_apart k k' s s' : In k map_areas -> In k' map_areas ->
  spawner_of_map k s -> spawner_of_map k' s' -> sp_group s = sp_group s' -> k = k' /\ s = s'.
Proof.
  intros Hk Hk' Hs Hs' E. apply (of_map k s Hk) in Hs. apply (of_map k' s' Hk') in Hs'.
  destruct (distinct_ok _ groups_distinct) as [D _].
  pose proof (map_NoDup_inj (fun x => sp_group (snd x)) every_spawner (k, s) (k', s') D
    (in_every k s Hk Hs) (in_every k' s' Hk' Hs') E) as X.
  split; [exact (f_equal fst X)|exact (f_equal snd X)].
Qed.
Lemma bundled_tables k s : In k map_areas -> spawner_of_map k s ->
  table_of_map k (sp_encounter_table s) /\ (forall lo, ~ lottery_under (sp_encounter_table s) lo) \/
  sp_mass_outbreak s = Some true /\ ~ table_of_map k (sp_encounter_table s) /\ exists lo, lottery_under (sp_encounter_table s) lo.
Proof.
  intros Hk Hs. apply (of_map k s Hk) in Hs. pose proof (spawners_checked k Hk) as C. cbv zeta in C.
  rewrite forallb_forall in C. apply C in Hs. apply andb_prop in Hs as [_ Hs].
  destruct (among (sp_encounter_table s) lottery_hashes) eqn:E.
  - right. apply andb_prop in Hs as [H1 H2]. split; [destruct (sp_mass_outbreak s) as [[|]|]; [reflexivity|discriminate..]|].
    split.
    + intros X. apply (in_map_tables_ok k _ Hk) in X. rewrite X in H2. discriminate H2.
    + apply among_ok in E. apply in_map_iff in E as (lo & E & Hlo). exists lo. apply lottery_found. now split.
  - left. split; [now apply (in_map_tables_ok k _ Hk)|]. intros lo X. apply lottery_found in X as [Hlo E'].
    assert (Y : among (sp_encounter_table s) lottery_hashes = true) by (apply among_ok; rewrite <- E'; now apply in_map).
    rewrite E in Y. discriminate Y.
Qed.
Lemma uses_ok k h : In k map_areas -> uses k h = true <-> exists s, spawner_of_map k s /\ sp_encounter_table s = h.
Proof.
  intros Hk. unfold uses. rewrite existsb_exists. split; intros (s & Hs & E); exists s.
  - split; [now apply of_map|now apply opt_eq_ok].
  - split; [now apply of_map|now apply opt_eq_ok].
Qed.
Lemma fitting_ok k x : In k map_areas -> In x (map gr_hash (filter (group_fits (pset (table_keys k))) groups)) ->
  exists g, group_under x g /\ table_of_map k (gr_first g) /\ gr_waves g <> [] /\ Forall (table_of_map k) (gr_waves g).
Proof.
  intros Hk H. apply in_map_iff in H as (g & E & Hg). apply filter_In in Hg as [Hg F]. exists g.
  split; [apply group_found; now split|]. apply andb_prop in F as [F F3]. apply andb_prop in F as [F1 F2].
  split; [now apply (in_map_tables_ok k _ Hk)|]. split; [destruct (gr_waves g); [discriminate F3|discriminate]|].
  apply Forall_forall. intros w Hw. rewrite forallb_forall in F2. apply (in_map_tables_ok k _ Hk). now apply F2.
Qed.
Lemma bundled_outbreaks h lo : lottery_under h lo ->
  (exists k s, In k map_areas /\ spawner_of_map k s /\ sp_encounter_table s = h) /\
  forall k s, In k map_areas -> spawner_of_map k s -> sp_encounter_table s = h ->
  forall x, In x (lo_common lo ++ lo_rare_1 lo ++ lo_rare_2 lo) ->
  x = no_group /\ ~ In x (lo_common lo) \/
  exists g, group_under x g /\ table_of_map k (gr_first g) /\ gr_waves g <> [] /\ Forall (table_of_map k) (gr_waves g).
Proof.
  intros H. apply lottery_found in H as [Hlo E]. split.
  - pose proof lotteries_used as U. rewrite forallb_forall in U. apply U in Hlo. apply existsb_exists in Hlo as (k & Hk & X).
    apply (uses_ok k _ Hk) in X as (s & Hs & X). exists k, s. rewrite X. now repeat split.
  - intros k s Hk Hs X x Hx. pose proof (lotteries_checked k Hk) as C. unfold map_lotteries_check in C. cbv zeta in C.
    rewrite forallb_forall in C. apply C in Hlo.
    assert (U : uses k (lo_hash lo) = true) 
      by (apply (uses_ok k _ Hk); exists s; split; [exact Hs|rewrite E; exact X]).
    rewrite U in Hlo. clear U C. apply andb_prop in Hlo as [Hlo H3]. apply andb_prop in Hlo as [H1 H2].
    rewrite forallb_forall in H1, H2, H3.
    assert (F : among x (map gr_hash (filter (group_fits (pset (table_keys k))) groups)) = true ->
      exists g, group_under x g /\ table_of_map k (gr_first g) /\ gr_waves g <> [] /\ Forall (table_of_map k) (gr_waves g)).
    { intros Y. apply (fitting_ok k x Hk). now apply among_ok. }
    destruct (in_dec opt_dec x (lo_common lo)) as [Hc|Hc]; [right; apply F, H1, Hc|].
    apply in_app_or in Hx as [Hx|Hx]; [easy|].
    assert (R : (if real x then among x (map gr_hash (filter (group_fits (pset (table_keys k))) groups)) else true) = true)
      by (apply in_app_or in Hx as [Hx|Hx]; auto).
    destruct (real x) eqn:Er; [right; now apply F|]. left. split; [|exact Hc].
    unfold real in Er. apply negb_false_iff in Er. now apply opt_eq_ok.
Qed.
Lemma bundled_groups_drawn h g : group_under h g ->
  exists k lo, lottery_under k lo /\ In h (lo_common lo ++ lo_rare_1 lo ++ lo_rare_2 lo).
Proof.
  intros H. apply group_found in H as [Hg E]. pose proof groups_used as U. rewrite forallb_forall in U. apply U in Hg.
  apply existsb_exists in Hg as (lo & Hlo & X). apply among_ok in X. rewrite E in X. exists (lo_hash lo), lo.
  split; [apply lottery_found; now split|exact X].
Qed.
