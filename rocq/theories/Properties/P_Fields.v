(** C87: the fields of compiled classes. *)
From Coq Require Import String List.
From Verif Require Import Base.Word Model.JitSpec Model.JitClasses Spec.FieldSpec Proofs.JitSpecProofs.
Import ListNotations.
Open Scope string_scope.
Open Scope list_scope.

(** A class that is decorated without a spec, with or without parentheses, gets the fields
    that it declares or inherits. *)
Theorem C87_fields_of_annotations_partial : forall c, Forall names_once c ->
  has_fields (jitclass_fields (optional_jitclass_numba (Some (A_class c)) None) c) (declares c) /\
  has_fields (jitclass_fields (optional_jitclass_numba None None) c) (declares c).
Proof. exact class_alone. Qed.
Print Assumptions C87_fields_of_annotations_partial.
(** One decorated with a spec gets those of the spec. *)
Theorem C87_fields_of_spec_partial : forall s c, names_once s ->
  has_fields (jitclass_fields (optional_jitclass_numba (Some (A_spec s)) None) c) (fun a h => In (a, h) s).
Proof. exact spec_alone. Qed.
Print Assumptions C87_fields_of_spec_partial.
(** With both, annotations go first. *)
Theorem C87_fields_of_both_partial : forall s c, Forall names_once c -> names_once s ->
  has_fields (jitclass_fields (optional_jitclass_numba (Some (A_class c)) (Some s)) c)
    (fun a h => declares c a h \/ (forall h', ~ declares c a h') /\ In (a, h) s).
Proof. exact class_and_spec. Qed.
Print Assumptions C87_fields_of_both_partial.
(** The dict of a spec is converted in place; the next class that uses it gets the same. *)
Theorem C87_spec_used_twice : forall s c c', names_once s ->
  jitclass_fields (optional_jitclass_numba (Some (A_spec (convert_spec s))) None) c' =
  jitclass_fields (optional_jitclass_numba (Some (A_spec s)) None) c.
Proof. intros s c c' H. exact (convert_twice s H). Qed.
Print Assumptions C87_spec_used_twice.

(** A spec that is given by keyword only is dropped: the class has no field of it, except
    those it declares itself. *)
Theorem C87_keyword_spec_refuted : forall s c a, Forall names_once c -> (forall h, ~ declares c a h) ->
  dict_get (jitclass_fields (optional_jitclass_numba None (Some s)) c) a = None.
Proof.
  intros s c a H Hn. destruct (dict_get _ a) as [t|] eqn:E; [|reflexivity].
  apply (proj2 (class_alone c H) a t) in E as (h & n & Hd & _). now elim (Hn h).
Qed.
Print Assumptions C87_keyword_spec_refuted.

(** Every class of the package is compiled with exactly the attributes that its methods
    use as fields. *)
Theorem C87_package_fields : forall name c used, In (name, c, used) jitclasses ->
  Forall names_once c /\
  forall a, In a used <->
    exists t, dict_get (jitclass_fields (optional_jitclass_numba (Some (A_class c)) None) c) a = Some (Numba_type t).
Proof.
  assert (H : forallb (fun '(name, c, used) =>
      let s := jitclass_fields (optional_jitclass_numba (Some (A_class c)) None) c in
      forallb (fun a => match dict_get s a with Some (Numba_type _) => true | _ => false end) used &&
      forallb (fun p => existsb (String.eqb (fst p)) used) s &&
      forallb (fun b => once (map fst b)) c)%bool jitclasses = true)
    by now vm_compute.
  rewrite forallb_forall in H. intros name c used Hi. specialize (H _ Hi). cbn beta iota in H.
  cbv zeta in H. apply andb_prop in H as [H Hc]. apply andb_prop in H as [Hu Hs].
  rewrite forallb_forall in Hu, Hs, Hc. split.
  - apply Forall_forall. intros b Hb. specialize (Hc b Hb).
    now apply once_nodup.
  - intros a. split.
    + intros Ha. specialize (Hu a Ha). destruct (dict_get _ a) as [[t| | | |]|]; try easy. now exists t.
    + intros [t Ht]. assert (In a (map fst (jitclass_fields (optional_jitclass_numba (Some (A_class c)) None) c))) as Hk.
      { destruct (in_dec string_dec a (map fst (jitclass_fields (optional_jitclass_numba (Some (A_class c)) None) c)))
          as [Hk|Hk]; [exact Hk|]. apply get_none in Hk. rewrite Hk in Ht. discriminate. }
      apply in_map_iff in Hk as (p & <- & Hp). specialize (Hs p Hp).
      apply existsb_exists in Hs as (b & Hb & E). apply String.eqb_eq in E. now rewrite E.
Qed.
Print Assumptions C87_package_fields.

(** The constructor of an RNGList stores an array of state_type in a field for 32-bit words:
    numba compiles it for that state type only. *)
Theorem C87_rnglist_state_type_actual : forall rng_class state_type c,
  exists t, dict_get (jitclass_fields (optional_jitclass_numba (Some (A_spec (rnglist_spec rng_class))) None) c) "list"
    = Some (Numba_type t) /\
  (may_store t (rnglist_buffer state_type) = true <-> state_type = U32).
Proof.
  intros rng_class state_type c. exists (NArray U32 1). split; [reflexivity|].
  unfold rnglist_buffer. rewrite store_iff. now split.
Qed.
Print Assumptions C87_rnglist_state_type_actual.
(** So there is no list of the 64-bit outputs of SIMDFastMersenneTwister or Xoroshiro128+. *)
Theorem C87_rnglist_64_bits_refuted : forall rng_class c t,
  dict_get (jitclass_fields (optional_jitclass_numba (Some (A_spec (rnglist_spec rng_class))) None) c) "list"
    = Some (Numba_type t) ->
  may_store t (rnglist_buffer U64) = false.
Proof. intros rng_class c t [=]; subst. reflexivity. Qed.
Print Assumptions C87_rnglist_64_bits_refuted.

(** A field that a class inherits and one that it declares anew. *)
Example C87_case :
  let c := [[("advance", Np_dtype U32); ("pid", Np_dtype U64)]; [("pid", Np_dtype U32); ("ivs", array_type U8)]] in
  Forall names_once c /\ declares c "ivs" (array_type U8) /\ declares c "pid" (Np_dtype U64) /\
  jitclass_fields (optional_jitclass_numba (Some (A_class c)) None) c =
    [("pid", Numba_type (NScalar U64)); ("ivs", Numba_type (NArray U8 1)); ("advance", Numba_type (NScalar U32))] /\
  length jitclasses = 20%nat.
Proof.
  cbv zeta. split; [|split; [|split; [|split]]].
  - repeat constructor; cbn; intuition discriminate.
  - constructor 2; [cbn; intuition discriminate|]. constructor. cbn. tauto.
  - constructor. cbn. tauto.
  - reflexivity.
  - reflexivity.
Qed.
