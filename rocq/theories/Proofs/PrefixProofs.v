(** Proofs for C94. *)
From Coq Require Import NArith ZArith List Lia.
From Verif Require Import Base.Word Model.Flatbuf Model.FbsLA Model.EncounterLA Spec.PrefixSpec.
Import ListNotations.
Open Scope N_scope.

Lemma rbind_ok {A B} (r : res A) (f : A -> res B) v : rbind r f = Ok v -> exists x, r = Ok x /\ f x = Ok v.
Proof. destruct r; [|discriminate]. eauto. Qed.
Lemma rmap_ok {A B} (r : res A) (f : A -> B) v : rmap f r = Ok v -> exists x, r = Ok x /\ f x = v.
Proof. destruct r; [|discriminate]. intros E. injection E as <-. eauto. Qed.

Lemma cut_of_rest {A} (read : list N -> res A) : ignores_the_rest read -> same_or_raises read.
Proof.
  intros H file keep. destruct (read (firstn keep file)) as [v|e] eqn:E; [|right; eauto].
  left. symmetry. rewrite <- (firstn_skipn keep file). now apply H.
Qed.

(** ** The rest is ignored *)
Section Rest.
  Variable rest : list N.
  Definition more_t (t : table) : table := mkTable (t_bytes t ++ rest) (t_pos t).
  Definition more (o : fbo) : fbo := mkFbo (more_t (fb_table o)) (fb_offset o) (fb_counter o).

  Lemma unpack_more w buf off v : unpack_from w buf off = Ok v -> unpack_from w (buf ++ rest) off = Ok v.
  Proof.
    unfold unpack_from. destruct (N.leb_spec (off + N.of_nat w) (N.of_nat (length buf))) as [L|L]; [|discriminate].
    intros E. injection E as <-. rewrite app_length.
    destruct (N.leb_spec (off + N.of_nat w) (N.of_nat (length buf + length rest))); [|lia].
    rewrite skipn_app. replace (N.to_nat off - length buf)%nat with 0%nat by lia.
    rewrite firstn_app, skipn_length. replace (w - (length buf - N.to_nat off))%nat with 0%nat by lia.
    cbn [firstn]. now rewrite app_nil_r.
  Qed.
  Lemma get_more t w off v : table_get t w off = Ok v -> table_get (more_t t) w off = Ok v.
  Proof. unfold table_get. destruct (enforce_uoffset off); [|discriminate]. apply unpack_more. Qed.
  Lemma offset_more t k v : table_offset t k = Ok v -> table_offset (more_t t) k = Ok v.
  Proof.
    unfold table_offset. intros E. apply rbind_ok in E as (s & E1 & E). cbv zeta in E.
    apply rbind_ok in E as (n & E2 & E). apply get_more in E1, E2.
    change (t_pos (more_t t)) with (t_pos t). rewrite E1. cbn [rbind]. cbv zeta. rewrite E2. cbn [rbind].
    destruct (k <? n); [now apply get_more|exact E].
  Qed.
  Lemma indirect_more t off v : table_indirect t off = Ok v -> table_indirect (more_t t) off = Ok v.
  Proof.
    unfold table_indirect. intros E. apply rbind_ok in E as (p & -> & E). apply rmap_ok in E as (x & E & <-).
    apply unpack_more in E. cbn [rbind t_bytes more_t]. rewrite E. reflexivity.
  Qed.
  Lemma vector_more t off v : table_vector t off = Ok v -> table_vector (more_t t) off = Ok v.
  Proof.
    unfold table_vector. intros E. apply rbind_ok in E as (p & -> & E). cbv zeta in E. apply rmap_ok in E as (x & E & <-).
    apply get_more in E. cbn [rbind]. cbv zeta. change (t_pos (more_t t)) with (t_pos t). rewrite E. reflexivity.
  Qed.
  Lemma vector_len_more t off v : table_vector_len t off = Ok v -> table_vector_len (more_t t) off = Ok v.
  Proof.
    unfold table_vector_len. intros E. apply rbind_ok in E as (p & -> & E). cbv zeta in E. apply rbind_ok in E as (x & E1 & E).
    apply unpack_more in E1. cbn [rbind]. cbv zeta. change (t_pos (more_t t)) with (t_pos t).
    cbn [t_bytes more_t]. rewrite E1. cbn [rbind]. now apply unpack_more.
  Qed.
  Lemma new_more buf off o : fbo_new buf off = Ok o -> fbo_new (buf ++ rest) off = Ok (more o).
  Proof.
    unfold fbo_new. intros E. apply rbind_ok in E as (p & E1 & E). apply rmap_ok in E as (q & E2 & <-).
    destruct off as [x|].
    - injection E1 as <-. cbn [rbind]. rewrite E2. reflexivity.
    - apply unpack_more in E1. rewrite E1. cbn [rbind]. rewrite E2. reflexivity.
  Qed.
  Lemma present_more {A} o k (read read' : N -> res A) d v : (forall p v, read p = Ok v -> read' p = Ok v) ->
    read_present o k read d = Ok v -> read_present (more o) k read' d = Ok v.
  Proof.
    intros R. unfold read_present. intros E. apply rbind_ok in E as (p & E1 & E). apply offset_more in E1.
    change (fb_table (more o)) with (more_t (fb_table o)). rewrite E1. cbn [rbind].
    destruct (p =? 0); [exact E|now apply R].
  Qed.
  Lemma init_more {A} (read : fbo -> N -> res A) o v o1 :
    (forall v, read o (fb_counter o) = Ok v -> read (more o) (fb_counter o) = Ok v) ->
    read_init read o = Ok (v, o1) -> read_init read (more o) = Ok (v, more o1).
  Proof.
    intros R. unfold read_init. intros E. apply rmap_ok in E as (x & E & X). injection X as <- <-.
    apply R in E. change (fb_counter (more o)) with (fb_counter o). rewrite E. reflexivity.
  Qed.
  Lemma int_more t d o v o1 : read_init_int t d o = Ok (v, o1) -> read_init_int t d (more o) = Ok (v, more o1).
  Proof.
    apply init_more. intros x. apply present_more. intros p y E. apply rmap_ok in E as (n & E & <-).
    apply get_more in E. cbn [fb_table more fb_offset]. rewrite E. reflexivity.
  Qed.
  Lemma float_more t d o v o1 : read_init_float t d o = Ok (v, o1) -> read_init_float t d (more o) = Ok (v, more o1).
  Proof.
    apply init_more. intros x. apply present_more. intros p y E. apply rmap_ok in E as (n & E & <-).
    apply get_more in E. cbn [fb_table more fb_offset]. rewrite E. reflexivity.
  Qed.
  Lemma enum_more {A} t (enum : Z -> res A) d o v o1 :
    read_init_int_enum t enum d o = Ok (v, o1) -> read_init_int_enum t enum d (more o) = Ok (v, more o1).
  Proof.
    apply init_more. intros x. apply present_more. intros p y E. apply rbind_ok in E as (n & E1 & E).
    apply get_more in E1. cbn [fb_table more fb_offset]. rewrite E1. exact E.
  Qed.
  Definition keeps {A} (cls : list N -> N -> res A) : Prop :=
    forall buf off v, cls buf off = Ok v -> cls (buf ++ rest) off = Ok v.
  Lemma object_more {A} (cls : list N -> N -> res A) d o v o1 : keeps cls ->
    read_init_object cls d o = Ok (v, o1) -> read_init_object cls d (more o) = Ok (v, more o1).
  Proof.
    intros K. apply init_more. intros x. apply present_more. intros p y E. apply rbind_ok in E as (n & E1 & E).
    apply rmap_ok in E as (z & E & <-). apply indirect_more in E1. apply K in E.
    cbn [fb_table more fb_offset t_bytes more_t]. fold (more_t (fb_table o)). rewrite E1. cbn [rbind]. rewrite E. reflexivity.
  Qed.
  Lemma items_more {A} (cls : list N -> N -> res A) t n : keeps cls -> forall a v,
    read_items cls t a n = Ok v -> read_items cls (more_t t) a n = Ok v.
  Proof.
    intros K. induction n as [|n IH]; intros a v E; [exact E|]. cbn [read_items] in *.
    apply rbind_ok in E as (p & E1 & E). apply rbind_ok in E as (x & E2 & E). apply rmap_ok in E as (l & E & <-).
    apply indirect_more in E1. apply K in E2. apply IH in E. rewrite E1. cbn [rbind].
    cbn [t_bytes more_t]. rewrite E2. cbn [rbind]. rewrite E. reflexivity.
  Qed.
  Lemma array_more {A} (cls : list N -> N -> res A) o v o1 : keeps cls ->
    read_init_object_array cls o = Ok (v, o1) -> read_init_object_array cls (more o) = Ok (v, more o1).
  Proof.
    intros K. apply init_more. intros x. apply present_more. intros p y E. apply rbind_ok in E as (n & E1 & E).
    apply rbind_ok in E as (m & E2 & E). apply vector_more in E1. apply vector_len_more in E2.
    apply (items_more _ _ _ K) in E.
    cbn [fb_table more]. rewrite E1. cbn [rbind]. rewrite E2. exact E.
  Qed.
  Lemma floats_more n : forall o v o1, read_floats n o = Ok (v, o1) -> read_floats n (more o) = Ok (v, more o1).
  Proof.
    induction n as [|n IH]; intros o v o1 E; cbn [read_floats] in *; [injection E as <- <-; reflexivity|].
    apply rbind_ok in E as ([x o2] & E1 & E). apply rmap_ok in E as ([l o3] & E & X). injection X as <- <-.
    apply float_more in E1. apply IH in E. rewrite E1. cbn [rbind]. rewrite E. reflexivity.
  Qed.
  Lemma padding_more n o : read_init_padding n (more o) = more (read_init_padding n o).
  Proof. reflexivity. Qed.
End Rest.

(** Walk through a constructor: each read of the whole is replaced by the read of more. *)
Ltac more_of rest E :=
  first [ apply (new_more rest) in E | apply (int_more rest) in E | apply (float_more rest) in E
        | apply (enum_more rest) in E | apply (floats_more rest) in E
        | apply (object_more rest) in E; [|solve [eauto with keeps]]
        | apply (array_more rest) in E; [|solve [eauto with keeps]] | idtac ].
Ltac walk rest E :=
  cbv zeta in E; cbv zeta; rewrite ?padding_more;
  lazymatch type of E with
  | rbind _ _ = Ok _ =>
      let x := fresh "x" in let E1 := fresh "E" in
      apply rbind_ok in E as (x & E1 & E); try destruct x as [? ?];
      more_of rest E1; rewrite E1; cbn [rbind]; walk rest E
  | rmap _ _ = Ok _ =>
      let x := fresh "x" in let E1 := fresh "E" in
      apply rmap_ok in E as (x & E1 & E); try destruct x as [? ?];
      more_of rest E1; rewrite E1; cbn [rmap]; rewrite <- E; reflexivity
  | _ => try exact E
  end.
Create HintDb keeps.

Section Classes.
  Variable rest : list N.
  Lemma vec3f_keeps : keeps rest vec3f_new. Proof. unfold keeps, vec3f_new. intros buf off v E. walk rest E. Qed.
  Lemma multiplier_keeps : keeps rest multiplier_new. Proof. unfold keeps, multiplier_new. intros buf off v E. walk rest E. Qed.
  Lemma misc_keeps : keeps rest misc_new. Proof. unfold keeps, misc_new. intros buf off v E. walk rest E. Qed.
  Lemma f20_keeps : keeps rest spawner_f20_new. Proof. unfold keeps, spawner_f20_new. intros buf off v E. walk rest E. Qed.
  Hint Resolve vec3f_keeps multiplier_keeps misc_keeps f20_keeps : keeps.
  Lemma placement_keeps : keeps rest placement_new. Proof. unfold keeps, placement_new, read_init_vec3f. intros buf off v E. walk rest E. Qed.
  Hint Resolve placement_keeps : keeps.
  Lemma spawner_keeps : keeps rest spawner_new. Proof. unfold keeps, spawner_new. intros buf off v E. walk rest E. Qed.
  Lemma eligibility_keeps : keeps rest eligibility_new. Proof. unfold keeps, eligibility_new. intros buf off v E. walk rest E. Qed.
  Lemma oybn_keeps : keeps rest oybn_new.
  Proof.
    unfold keeps, oybn_new. intros buf off v E. walk rest E. destruct (truthy _); [exact E|]. walk rest E.
  Qed.
  Hint Resolve spawner_keeps eligibility_keeps oybn_keeps : keeps.
  Lemma slot_keeps : keeps rest slot8a_new. Proof. unfold keeps, slot8a_new. intros buf off v E. walk rest E. Qed.
  Hint Resolve slot_keeps : keeps.
  Lemma etable_keeps : keeps rest etable_new. Proof. unfold keeps, etable_new. intros buf off v E. walk rest E. Qed.
  Lemma wave_keeps : keeps rest second_wave_new. Proof. unfold keeps, second_wave_new. intros buf off v E. walk rest E. Qed.
  Lemma detail_keeps : keeps rest lottery_detail_new. Proof. unfold keeps, lottery_detail_new. intros buf off v E. walk rest E. Qed.
  Hint Resolve etable_keeps wave_keeps detail_keeps : keeps.
  Lemma group_keeps : keeps rest group_new. Proof. unfold keeps, group_new. intros buf off v E. walk rest E. Qed.
  Lemma lottery_keeps : keeps rest lottery_new. Proof. unfold keeps, lottery_new. intros buf off v E. walk rest E. Qed.
End Classes.
#[export] Hint Resolve multiplier_keeps misc_keeps spawner_keeps etable_keeps group_keeps lottery_keeps : keeps.

Lemma rest_multiplier : ignores_the_rest multiplier_table.
Proof. intros file rest v E. unfold multiplier_table in *. walk rest E. Qed.
Lemma rest_misc : ignores_the_rest misc_table.
Proof. intros file rest v E. unfold misc_table in *. walk rest E. Qed.
Lemma rest_spawner : ignores_the_rest spawner_table.
Proof. intros file rest v E. unfold spawner_table in *. walk rest E. Qed.
Lemma rest_etable : ignores_the_rest etable_table.
Proof. intros file rest v E. unfold etable_table in *. walk rest E. Qed.
Lemma rest_group : ignores_the_rest group_table.
Proof. intros file rest v E. unfold group_table in *. walk rest E. Qed.
Lemma rest_lottery : ignores_the_rest lottery_table.
Proof. intros file rest v E. unfold lottery_table in *. walk rest E. Qed.
Lemma rest_encounters mults infos : ignores_the_rest (load_encounter_tables_la mults infos).
Proof.
  intros file rest v E. unfold load_encounter_tables_la in *. apply rbind_ok in E as (x & E1 & E).
  apply (rest_etable file rest) in E1. rewrite E1. exact E.
Qed.

(** ** The exceptions *)
Definition only {A} (es : list exn) (r : res A) : Prop := forall e, r = Raise e -> In e es.
Lemma only_ok {A} es (a : A) : only es (Ok a). Proof. discriminate. Qed.
Lemma only_bind {A B} es (r : res A) (f : A -> res B) : only es r -> (forall x, only es (f x)) -> only es (rbind r f).
Proof. intros H K e. destruct r as [a|e']; cbn [rbind]; [apply K|]. intros E. injection E as ->. now apply H. Qed.
Lemma only_map {A B} es (r : res A) (f : A -> B) : only es r -> only es (rmap f r).
Proof. intros H e. destruct r as [a|e']; cbn [rmap]; [discriminate|]. intros E. injection E as ->. now apply H. Qed.

Section Only.
  Variable es : list exn.
  Hypothesis HS : In StructError es.
  Hypothesis HT : In TypeError es.
  Lemma unpack_only w buf off : only es (unpack_from w buf off).
  Proof. intros e. unfold unpack_from. destruct (_ <=? _); [discriminate|]. intros E. injection E as <-. exact HS. Qed.
  Lemma enforce_only z : only es (enforce_uoffset z).
  Proof. intros e. unfold enforce_uoffset. destruct (andb _ _); [discriminate|]. intros E. injection E as <-. exact HT. Qed.
  Lemma get_only t w off : only es (table_get t w off).
  Proof. apply only_bind; [apply enforce_only|intros; apply unpack_only]. Qed.
  Lemma offset_only t k : only es (table_offset t k).
  Proof.
    apply only_bind; [apply get_only|]. intros s. cbv zeta. apply only_bind; [apply get_only|]. intros n.
    destruct (k <? n); [apply get_only|apply only_ok].
  Qed.
  Lemma indirect_only t off : only es (table_indirect t off).
  Proof. apply only_bind; [apply enforce_only|]. intros. apply only_map, unpack_only. Qed.
  Lemma vector_only t off : only es (table_vector t off).
  Proof. apply only_bind; [apply enforce_only|]. intros. apply only_map, get_only. Qed.
  Lemma vector_len_only t off : only es (table_vector_len t off).
  Proof. apply only_bind; [apply enforce_only|]. intros. apply only_bind; [apply unpack_only|]. intros. apply unpack_only. Qed.
  Lemma new_only buf off : only es (fbo_new buf off).
  Proof. apply only_bind; [destruct off; [apply only_ok|apply unpack_only]|]. intros. apply only_map, enforce_only. Qed.
  Lemma init_only {A} (read : N -> res A) d o : (forall p, only es (read p)) ->
    only es (rmap (fun v => (v, bump o 1)) (read_present o (fb_counter o) read d)).
  Proof.
    intros R. apply only_map. apply only_bind; [apply offset_only|]. intros p.
    destruct (p =? 0); [apply only_ok|apply R].
  Qed.
  Lemma int_only t d o : only es (read_init_int t d o).
  Proof. apply init_only. intros. apply only_map, get_only. Qed.
  Lemma float_only t d o : only es (read_init_float t d o).
  Proof. apply init_only. intros. apply only_map, get_only. Qed.
  Lemma bool_only t d o : only es (read_init_int_enum t to_bool d o).
  Proof. apply init_only. intros. apply only_bind; [apply get_only|]. intros. apply only_map, only_ok. Qed.
  Lemma object_only {A} (cls : list N -> N -> res A) d o : (forall b p, only es (cls b p)) ->
    only es (read_init_object cls d o).
  Proof. intros K. apply init_only. intros. apply only_bind; [apply indirect_only|]. intros. apply only_map, K. Qed.
  Lemma items_only {A} (cls : list N -> N -> res A) t : (forall b p, only es (cls b p)) ->
    forall n a, only es (read_items cls t a n).
  Proof.
    intros K. induction n as [|n IH]; intros a; [apply only_ok|]. cbn [read_items].
    apply only_bind; [apply indirect_only|]. intros. apply only_bind; [apply K|]. intros. apply only_map, IH.
  Qed.
  Lemma array_only {A} (cls : list N -> N -> res A) o : (forall b p, only es (cls b p)) ->
    only es (read_init_object_array cls o).
  Proof.
    intros K. apply init_only. intros. apply only_bind; [apply vector_only|]. intros.
    apply only_bind; [apply vector_len_only|]. intros. now apply items_only.
  Qed.
  Lemma floats_only n : forall o, only es (read_floats n o).
  Proof.
    induction n as [|n IH]; intros o; [apply only_ok|]. cbn [read_floats]. apply only_bind; [apply float_only|].
    intros [x o']. apply only_map, IH.
  Qed.
  Ltac stroll := cbv zeta; repeat first
    [ assumption | apply only_ok | apply new_only | apply int_only | apply float_only | apply bool_only | apply floats_only
    | apply object_only | apply array_only | apply only_map | apply only_bind
    | match goal with
      | |- forall x : prod _ _, _ => intros [? ?]; cbv zeta
      | |- forall _, _ => intros ?; cbv zeta
      | |- only _ (if ?b then _ else _) => destruct b
      end ].
  Lemma vec3f_only b p : only es (vec3f_new b p). Proof. unfold vec3f_new. stroll. Qed.
  Lemma multiplier_only b p : only es (multiplier_new b p). Proof. unfold multiplier_new. stroll. Qed.
  Lemma misc_only b p : only es (misc_new b p). Proof. unfold misc_new. stroll. Qed.
  Lemma f20_only b p : only es (spawner_f20_new b p). Proof. unfold spawner_f20_new. stroll. Qed.
  Lemma placement_only b p : only es (placement_new b p).
  Proof. unfold placement_new, read_init_vec3f. stroll; apply vec3f_only. Qed.
  Lemma first_only {A} (l : list A) : In IndexError es -> only es (first l).
  Proof. intros H e. destruct l; [|discriminate]. intros E. injection E as <-. exact H. Qed.
  Lemma spawner_only b p : In IndexError es -> only es (spawner_new b p).
  Proof. intros H. unfold spawner_new. stroll; first [apply placement_only|apply f20_only|now apply first_only]. Qed.
  Lemma eligibility_only b p : only es (eligibility_new b p). Proof. unfold eligibility_new. stroll. Qed.
  Lemma oybn_only b p : only es (oybn_new b p). Proof. unfold oybn_new. stroll. Qed.
  Lemma slot_only b p : In AttributeError es -> only es (slot8a_new b p).
  Proof.
    intros H. unfold slot8a_new. stroll; try apply eligibility_only; try apply oybn_only.
    match goal with |- only _ (match ?x with _ => _ end) => destruct x end; [apply only_ok|].
    intros e E. injection E as <-. exact H.
  Qed.
  Lemma etable_only b p : In AttributeError es -> only es (etable_new b p).
  Proof. intros H. unfold etable_new. pose proof (fun b p => slot_only b p H). stroll. Qed.
  Lemma wave_only b p : only es (second_wave_new b p). Proof. unfold second_wave_new. stroll. Qed.
  Lemma group_only b p : only es (group_new b p). Proof. unfold group_new. stroll; apply wave_only. Qed.
  Lemma detail_only b p : only es (lottery_detail_new b p). Proof. unfold lottery_detail_new. stroll. Qed.
  Lemma lottery_only b p : only es (lottery_new b p). Proof. unfold lottery_new. stroll; apply detail_only. Qed.

  Lemma table_only {A B} (cls : list N -> N -> res A) (f : list A * fbo -> B) file : (forall b p, only es (cls b p)) ->
    only es (rbind (fbo_new file None) (fun o => rmap f (read_init_object_array cls o))).
  Proof. intros K. apply only_bind; [apply new_only|]. intros o. now apply only_map, array_only. Qed.
End Only.

Ltac ins := cbn [In]; tauto.
Lemma exn_tables :
  raises_only [StructError; TypeError] multiplier_table /\ raises_only [StructError; TypeError] misc_table /\
  raises_only [StructError; TypeError; IndexError] spawner_table /\
  raises_only [StructError; TypeError; AttributeError] etable_table /\
  raises_only [StructError; TypeError] group_table /\ raises_only [StructError; TypeError] lottery_table.
Proof.
  repeat apply conj; intros file;
    [unfold multiplier_table|unfold misc_table|unfold spawner_table|unfold etable_table|unfold group_table|unfold lottery_table];
    apply table_only; try ins; intros b p;
    [apply multiplier_only|apply misc_only|apply spawner_only|apply etable_only|apply group_only|apply lottery_only]; ins.
Qed.

(** ** Strings *)
Lemma firstn_skipn_prefix {A} n a (l r : list A) : exists k, firstn n (skipn a l) = firstn k (firstn n (skipn a (l ++ r))).
Proof.
  exists (length (firstn n (skipn a l))). rewrite skipn_app, firstn_app, firstn_app.
  rewrite firstn_all. rewrite Nat.sub_diag. cbn [firstn]. now rewrite app_nil_r.
Qed.
Lemma string_more rest o : (exists e, read_init_string o = Raise e) \/
  exists n b o1 o2, read_init_string (more rest o) = Ok (b, o1) /\ read_init_string o = Ok (firstn n b, o2).
Proof.
  unfold read_init_string, read_init, read_string, read_present.
  change (fb_counter (more rest o)) with (fb_counter o).
  change (fb_table (more rest o)) with (more_t rest (fb_table o)).
  destruct (table_offset (fb_table o) (fb_counter o)) as [p|e] eqn:E0; [|left; eexists; reflexivity].
  apply (offset_more rest) in E0. rewrite E0. cbn [rbind].
  destruct (p =? 0); [left; eexists; reflexivity|].
  destruct (table_vector (fb_table o) p) as [a|e] eqn:E1; [|left; eexists; reflexivity].
  apply (vector_more rest) in E1. rewrite E1. cbn [rbind].
  destruct (table_vector_len (fb_table o) p) as [l|e] eqn:E2; [|left; eexists; reflexivity].
  apply (vector_len_more rest) in E2. rewrite E2. cbn [rbind rmap].
  destruct (firstn_skipn_prefix (N.to_nat l) (N.to_nat a) (t_bytes (fb_table o)) rest) as (n & E3).
  right. exists n. eexists _, _, _. split; [reflexivity|]. rewrite E3. reflexivity.
Qed.
Lemma string_cut file keep pos k :
  let read f := read_init_string (mkFbo (mkTable f pos) pos k) in
  (exists e, read (firstn keep file) = Raise e) \/
  exists n b o o', read file = Ok (b, o) /\ read (firstn keep file) = Ok (firstn n b, o').
Proof.
  cbv zeta. pose proof (string_more (skipn keep file) (mkFbo (mkTable (firstn keep file) pos) pos k)) as H.
  unfold more, more_t in H. cbn [fb_table fb_offset fb_counter t_bytes t_pos] in H. rewrite firstn_skipn in H. exact H.
Qed.
