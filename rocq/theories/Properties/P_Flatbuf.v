(** C58: FlatBuffer tables read back. *)
From Coq Require Import NArith ZArith List Bool Lia.
From Verif Require Import Base.Word Model.Flatbuf Model.FbsLA Spec.FlatbufSpec Spec.FbsLASpec
  Proofs.FlatbufProofs Proofs.FbsLAProofs Proofs.FlatbufCheck Proofs.FbsCase.
Import ListNotations.
Open Scope N_scope.

(** C58. [at_field buf pos o k st]: the buffer holds object [o] at [pos], in any layout, and
    the reader [st] is about to read its field [k]. Each read returns the stored value, or
    the default for an absent field, and is about to read field [k + 1] afterwards. *)
Theorem C58_new : forall buf,
  (forall pos o, object_at buf pos o ->
     exists st, fbo_new buf (Some pos) = Ok st /\ at_field buf pos o 0 st) /\
  (forall o, root_at buf o -> exists pos st, fbo_new buf None = Ok st /\ at_field buf pos o 0 st).
Proof. intros buf. split; [exact (new_at buf)|exact (new_root buf)]. Qed.
Print Assumptions C58_new.

Theorem C58_int : forall buf pos o k st t d, (0 < nt_width t)%nat ->
  at_field buf pos o k st -> scalar_field o k (nt_width t) ->
  exists st', read_init_int t d st = Ok (int_value t d o k, st') /\ at_field buf pos o (S k) st'.
Proof. exact int_at. Qed.
Print Assumptions C58_int.

Theorem C58_float : forall buf pos o k st w d,
  at_field buf pos o k st -> scalar_field o k w ->
  exists st', read_init_float w d st = Ok (float_value d o k, st') /\ at_field buf pos o (S k) st'.
Proof. exact float_at. Qed.
Print Assumptions C58_float.

(** An enum is applied to the number; bool is one. *)
Theorem C58_int_enum : forall A buf pos o k st t (enum : Z -> res A) d v, (0 < nt_width t)%nat ->
  at_field buf pos o k st -> scalar_field o k (nt_width t) ->
  match field_of o k with
  | Some (FScalar _ n) => exists x, enum (value_of t n) = Ok x /\ v = Some x
  | _ => v = d
  end ->
  exists st', read_init_int_enum t enum d st = Ok (v, st') /\ at_field buf pos o (S k) st'.
Proof. exact @enum_at. Qed.
Print Assumptions C58_int_enum.

Theorem C58_bool : forall buf pos o k st t,
  at_field buf pos o k st -> scalar_field o k (nt_width t) ->
  exists st', read_init_int_enum t to_bool None st = Ok (bool_value o k, st') /\ at_field buf pos o (S k) st'.
Proof. exact bool_at. Qed.
Print Assumptions C58_bool.

(** Objects and vectors of objects, for every class that reads its own objects. *)
Theorem C58_object : forall A buf pos o k st (cls : list N -> N -> res A) d v,
  at_field buf pos o k st ->
  match field_of o k with
  | Some (FRef o') => exists x, v = Some x /\ forall p, object_at buf p o' -> cls buf p = Ok x
  | None => v = d
  | Some _ => False
  end ->
  exists st', read_init_object cls d st = Ok (v, st') /\ at_field buf pos o (S k) st'.
Proof. exact @object_field. Qed.
Print Assumptions C58_object.

Theorem C58_object_array : forall A buf pos o k st (cls : list N -> N -> res A) v,
  at_field buf pos o k st ->
  match field_of o k with
  | Some (FVec os) => Forall2 (fun o x => forall p, object_at buf p o -> cls buf p = Ok x) os v
  | None => v = []
  | Some _ => False
  end ->
  exists st', read_init_object_array cls st = Ok (v, st') /\ at_field buf pos o (S k) st'.
Proof. exact @array_field. Qed.
Print Assumptions C58_object_array.

(** A present string gives its bytes. *)
Theorem C58_string_partial : forall buf pos o k st bytes, at_field buf pos o k st ->
  field_of o k = Some (FStr bytes) ->
  exists st', read_init_string st = Ok (bytes, st') /\ at_field buf pos o (S k) st'.
Proof.
  intros buf pos o k st bytes Hat E. pose proof (string_field buf pos o k st Hat) as H. rewrite E in H. exact H.
Qed.
Print Assumptions C58_string_partial.

(** For an absent string and the default None the read raises instead of returning None. *)
Theorem C58_absent_string_refuted : forall buf pos o k st, at_field buf pos o k st ->
  field_of o k = None -> read_init_string st = Raise AttributeError.
Proof.
  intros buf pos o k st Hat E. pose proof (string_field buf pos o k st Hat) as H. rewrite E in H. exact H.
Qed.
Print Assumptions C58_absent_string_refuted.

(** Padding skips fields, present or not. *)
Theorem C58_padding : forall buf pos o k st n, at_field buf pos o k st ->
  at_field buf pos o (k + N.to_nat n) (read_init_padding n st).
Proof. exact padding_at. Qed.
Print Assumptions C58_padding.

(** The classes of Legends Arceus: each attribute comes from its field. *)
Theorem C58_classes :
  reads multiplier_new multiplier_is /\ reads misc_new misc_is /\ reads spawner_new spawner_is /\
  reads slot8a_new slot_is /\ reads etable_new etable_is /\ reads group_new group_is /\
  reads lottery_new lottery_is.
Proof.
  exact (conj multiplier_reads (conj misc_reads (conj spawner_reads (conj slot_reads
    (conj etable_reads (conj group_reads lottery_reads)))))).
Qed.
Print Assumptions C58_classes.

(** A slot without the object of its alpha flags and a spawner without placements or without
    encounter tables raise. *)
Theorem C58_incomplete : forall buf pos o, object_at buf pos o ->
  (forall e, scalars o 4 [0; 2; 3; 25; 29; 30; 31]%nat -> ref_is eligibility_is o 45 e ->
     field_of o 46 = None -> slot8a_new buf pos = Raise AttributeError) /\
  (forall placements tables, scalars o 8 [0; 1]%nat -> scalars o 4 [7; 8]%nat -> scalars o 1 [10; 11; 12]%nat ->
     vector_is placement_is o 2 placements -> vector_is (id_is 0) o 20 tables -> placements = [] \/ tables = [] ->
     spawner_new buf pos = Raise IndexError).
Proof.
  intros buf pos o H.
  exact (conj (fun e => slot_incomplete buf pos o e H) (fun p t => spawner_incomplete buf pos o p t H)).
Qed.
Print Assumptions C58_incomplete.
(** An object without fields, and an entry of poke_misc.bin read as a slot. *)
Example C58_incomplete_case :
  object_at [4; 0; 4; 0; 4; 0; 0; 0] 4 (Obj []) /\ spawner_new [4; 0; 4; 0; 4; 0; 0; 0] 4 = Raise IndexError /\
  object_at misc_case_bytes 56 (Obj [Some (FScalar 4 77); None; None; None; None; None; Some (FScalar 4 2)]) /\
  slot8a_new misc_case_bytes 56 = Raise AttributeError.
Proof.
  assert (A : object_at [4; 0; 4; 0; 4; 0; 0; 0] 4 (Obj [])) by (apply (check_ok 1); vm_compute; reflexivity).
  assert (B : object_at misc_case_bytes 56 (Obj [Some (FScalar 4 77); None; None; None; None; None; Some (FScalar 4 2)]))
    by (apply (check_ok 1); vm_compute; reflexivity).
  split; [exact A|]. split.
  - apply (proj2 (C58_incomplete _ _ _ A) [] []); [repeat constructor..|now left].
  - split; [exact B|]. apply (proj1 (C58_incomplete _ _ _ B) None); [repeat constructor|reflexivity..].
Qed.

(** The files: all entries in order, and lookups that give the last entry of a key. Species are
    looked up together with their form, which is 0 when absent. *)
Theorem C58_files : forall file o, root_at file o ->
  (forall l, vector_is multiplier_is o 0 l -> exists d, multiplier_table file = Ok (l, d) /\
     looks_up d (fun m k => fst k = mu_species m /\ defaulted (mu_form m) (snd k)) l) /\
  (forall l, vector_is misc_is o 0 l -> exists d, misc_table file = Ok (l, d) /\
     looks_up d (fun m k => fst k = mi_species m /\ defaulted (mi_form m) (snd k)) l) /\
  (forall l, vector_is spawner_is o 0 l -> exists d e, spawner_table file = Ok (l, d, e) /\
     looks_up d (fun m k => sp_id m = k) l /\ looks_up e (fun m k => sp_group m = k) l) /\
  (forall l, vector_is etable_is o 0 l -> exists d, etable_table file = Ok (l, d) /\ looks_up d (fun m k => et_id m = k) l) /\
  (forall l, vector_is group_is o 0 l -> exists d, group_table file = Ok (l, d) /\ looks_up d (fun m k => gr_hash m = k) l) /\
  (forall l, vector_is lottery_is o 0 l -> exists d, lottery_table file = Ok (l, d) /\ looks_up d (fun m k => lo_hash m = k) l).
Proof.
  intros file o Hr.
  split; [|split; [|split; [|split; [|split]]]]; intros l Hv;
    unfold multiplier_table, misc_table, spawner_table, etable_table, group_table, lottery_table.
  - destruct (root_vector file o _ _ l multiplier_reads Hr Hv) as (st & st' & -> & E). cbn [rbind]. rewrite E.
    eexists. split; [reflexivity|]. apply (by_looks_up _ _ _ _ sf_eq_ok). intros v k. apply species_form_key.
  - destruct (root_vector file o _ _ l misc_reads Hr Hv) as (st & st' & -> & E). cbn [rbind]. rewrite E.
    eexists. split; [reflexivity|]. apply (by_looks_up _ _ _ _ sf_eq_ok). intros v k. apply species_form_key.
  - destruct (root_vector file o _ _ l spawner_reads Hr Hv) as (st & st' & -> & E). cbn [rbind]. rewrite E.
    eexists. eexists. split; [reflexivity|]. split; (apply (by_looks_up _ _ _ _ opt_eq_ok); reflexivity).
  - destruct (root_vector file o _ _ l etable_reads Hr Hv) as (st & st' & -> & E). cbn [rbind]. rewrite E.
    eexists. split; [reflexivity|]. apply (by_looks_up _ _ _ _ opt_eq_ok). reflexivity.
  - destruct (root_vector file o _ _ l group_reads Hr Hv) as (st & st' & -> & E). cbn [rbind]. rewrite E.
    eexists. split; [reflexivity|]. apply (by_looks_up _ _ _ _ opt_eq_ok). reflexivity.
  - destruct (root_vector file o _ _ l lottery_reads Hr Hv) as (st & st' & -> & E). cbn [rbind]. rewrite E.
    eexists. split; [reflexivity|]. apply (by_looks_up _ _ _ _ opt_eq_ok). reflexivity.
Qed.
Print Assumptions C58_files.

(** A buffer with a number, an absent field, a string and an object, in reverse order. *)
Example C58_case :
  root_at str_case_bytes str_case_root /\
  exists pos st, fbo_new str_case_bytes None = Ok st /\ at_field str_case_bytes pos str_case_root 0 st /\
  exists st1, read_init_int U32 None st = Ok (Some 7%Z, st1) /\
  exists st2, read_init_int U32 (Some 5%Z) st1 = Ok (Some 5%Z, st2) /\
  exists st3, read_init_string st2 = Ok ([75; 97; 109; 97; 100; 111], st3) /\
  exists st4, read_init_vec3f None st3 = Ok (Some (mkVec3 (Some 0x3F800000) (Some 0xC0000000) (Some 0)), st4) /\
  read_init_string st4 = Raise AttributeError.
Proof.
  assert (H : root_at str_case_bytes str_case_root).
  { apply (check_root_ok 3). vm_compute. reflexivity. }
  split; [exact H|]. destruct (proj2 (C58_new _) _ H) as (pos & st & E & Hat). exists pos, st.
  split; [exact E|]. split; [exact Hat|]. vm_compute in E. injection E as <-.
  do 4 (eexists; split; [vm_compute; reflexivity|]). vm_compute. reflexivity.
Qed.
(** A file in the format of poke_misc.bin with three of its entries. *)
Example C58_misc_case :
  root_at misc_case_bytes misc_case_root /\
  vector_is misc_is misc_case_root 0
    [mkMisc (Some 77%Z) (Some 0%Z) (Some 2%Z); mkMisc (Some 396%Z) (Some 0%Z) (Some 1%Z);
     mkMisc (Some 399%Z) (Some 0%Z) (Some 1%Z)].
Proof.
  split; [apply (check_root_ok 3); vm_compute; reflexivity|].
  repeat constructor.
Qed.
