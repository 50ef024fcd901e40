From Coq Require Import String List Permutation.
From Verif Require Import Base.Word Model.JitSpec Spec.FieldSpec.
Import ListNotations.

Lemma means_iff h n : means h n <-> n = convert_to_numba h.
Proof. split; [now intros []|]. intros ->. destruct h; constructor. Qed.

Lemma get_set s k v a : dict_get (dict_set s k v) a = if String.eqb k a then Some v else dict_get s a.
Proof.
  induction s as [|[k' v'] s IH]; cbn.
  - reflexivity.
  - destruct (String.eqb_spec k' k) as [->|Hk]; cbn.
    + now destruct (String.eqb k a).
    + rewrite IH. destruct (String.eqb_spec k' a) as [->|]; [|reflexivity].
      now destruct (String.eqb_spec k a) as [->|].
Qed.

Lemma get_in s a t : names_once s -> (dict_get s a = Some t <-> In (a, t) s).
Proof.
  induction s as [|[k v] s IH]; cbn; [easy|]. unfold names_once in *. cbn. intros H.
  inversion_clear H as [|? ? Hn Hs]. destruct (String.eqb_spec k a) as [->|Hk].
  - split; [intros [=]; subst; now left|]. intros [[=]|H]; [now subst|].
    elim Hn. now apply (in_map fst) in H.
  - rewrite (IH Hs). split; [now right|]. intros [[=]|H]; easy.
Qed.

Lemma get_none s a : dict_get s a = None <-> ~ In a (map fst s).
Proof.
  induction s as [|[k v] s IH]; cbn; [easy|]. destruct (String.eqb_spec k a) as [->|Hk].
  - split; [easy|]. intros H. elim H. now left.
  - rewrite IH. tauto.
Qed.

(** Assigning the items of a dict one after the other. *)
Lemma assign_all (f : pytype -> pytype) body : forall s a, names_once body ->
  dict_get (fold_left (fun s '(k, t) => dict_set s k (f t)) body s) a =
  match dict_get body a with Some t => Some (f t) | None => dict_get s a end.
Proof.
  induction body as [|[k v] body IH]; intros s a H; [reflexivity|].
  unfold names_once in H. cbn in H. inversion_clear H as [|? ? Hn Hs].
  cbn. rewrite (IH _ _ Hs), get_set. destruct (String.eqb_spec k a) as [->|]; [|reflexivity].
  apply get_none in Hn. now rewrite Hn.
Qed.

Lemma set_names s k v : map fst (dict_set s k v) = if dict_get s k then map fst s else map fst s ++ [k].
Proof.
  induction s as [|[k' v'] s IH]; cbn; [reflexivity|].
  destruct (String.eqb_spec k' k) as [->|Hk]; cbn; [reflexivity|]. rewrite IH. now destruct (dict_get s k).
Qed.
Lemma set_once s k v : names_once s -> names_once (dict_set s k v).
Proof.
  unfold names_once. rewrite set_names. intros H. destruct (dict_get s k) eqn:E; [exact H|].
  apply get_none in E. apply (Permutation_NoDup (l := k :: map fst s));
    [apply Permutation_cons_append|now constructor].
Qed.
Lemma assign_once (f : pytype -> pytype) body : forall s, names_once s ->
  names_once (fold_left (fun s '(k, t) => dict_set s k (f t)) body s).
Proof. induction body as [|[k v] body IH]; intros s H; [exact H|]. cbn. now apply IH, set_once. Qed.

Lemma hints_once c : names_once (get_type_hints c).
Proof.
  unfold get_type_hints. generalize (rev c). intros l.
  assert (H : names_once []) by constructor. revert H. generalize (@nil (string * pytype)).
  induction l as [|b l IH]; intros s H; [exact H|]. cbn. apply IH. now apply (assign_once (fun t => t)).
Qed.

Lemma hints_cons body bases a : names_once body ->
  dict_get (get_type_hints (body :: bases)) a =
  match dict_get body a with Some t => Some t | None => dict_get (get_type_hints bases) a end.
Proof.
  intros H. unfold get_type_hints. cbn [rev]. rewrite fold_left_app. cbn.
  now rewrite (assign_all (fun t => t)).
Qed.

Lemma hints_declared c a h : Forall names_once c -> (dict_get (get_type_hints c) a = Some h <-> declares c a h).
Proof.
  induction 1 as [|body bases Hb Hc IH].
  - split; [easy|]. intros H; inversion H.
  - rewrite hints_cons by exact Hb. destruct (dict_get body a) as [t|] eqn:E.
    + split.
      * intros [=]; subst. apply (get_in _ _ _ Hb) in E. now constructor.
      * intros H. inversion H as [? ? ? ? Hi|? ? ? ? Hn]; subst.
        -- apply (get_in _ _ _ Hb) in Hi. congruence.
        -- apply get_none in Hn. congruence.
    + rewrite IH. split.
      * intros H. constructor 2; [now apply get_none|exact H].
      * intros H. inversion H as [? ? ? ? Hi|]; subst; [|assumption].
        apply (get_in _ _ _ Hb) in Hi. congruence.
Qed.

Lemma convert_spec_get s a : names_once s ->
  dict_get (convert_spec s) a = option_map (fun t => Numba_type (convert_to_numba t)) (dict_get s a).
Proof.
  intros H. unfold convert_spec. rewrite (assign_all (fun t => Numba_type (convert_to_numba t))) by exact H.
  now destruct (dict_get s a).
Qed.

Lemma convert_cls_get s c a :
  dict_get (convert_spec_cls s c) a =
  match dict_get (get_type_hints c) a with
  | Some t => Some (Numba_type (convert_to_numba t))
  | None => match s with Some s => dict_get s a | None => None end
  end.
Proof.
  unfold convert_spec_cls. rewrite (assign_all (fun t => Numba_type (convert_to_numba t))) by apply hints_once.
  destruct (dict_get (get_type_hints c) a); [reflexivity|]. now destruct s.
Qed.

Lemma class_alone c : Forall names_once c ->
  has_fields (jitclass_fields (optional_jitclass_numba (Some (A_class c)) None) c) (declares c) /\
  has_fields (jitclass_fields (optional_jitclass_numba None None) c) (declares c).
Proof.
  intros H. assert (G : has_fields (convert_spec_cls None c) (declares c)).
  { intros a t. rewrite convert_cls_get. split.
    - destruct (dict_get (get_type_hints c) a) as [h|] eqn:E; [|easy]. intros [=]; subst.
      exists h, (convert_to_numba h). rewrite <- hints_declared by exact H. now rewrite means_iff.
    - intros (h & n & Hd & Hm & ->). apply (hints_declared _ _ _ H) in Hd. apply means_iff in Hm. subst n.
      now rewrite Hd. }
  split; exact G.
Qed.

Lemma spec_alone s c : names_once s ->
  has_fields (jitclass_fields (optional_jitclass_numba (Some (A_spec s)) None) c) (fun a h => In (a, h) s).
Proof.
  intros H a t. cbn. rewrite convert_spec_get by exact H. split.
  - destruct (dict_get s a) as [h|] eqn:E; [|easy]. intros [=]; subst.
    exists h, (convert_to_numba h). rewrite <- get_in by exact H. now rewrite means_iff.
  - intros (h & n & Hd & Hm & ->). apply (get_in _ _ _ H) in Hd. apply means_iff in Hm. subst n. now rewrite Hd.
Qed.

Lemma class_and_spec s c : Forall names_once c -> names_once s ->
  has_fields (jitclass_fields (optional_jitclass_numba (Some (A_class c)) (Some s)) c)
    (fun a h => declares c a h \/ (forall h', ~ declares c a h') /\ In (a, h) s).
Proof.
  intros H Hs a t. cbn. rewrite convert_cls_get, convert_spec_get by exact Hs. split.
  - destruct (dict_get (get_type_hints c) a) as [h|] eqn:E.
    + intros [=]; subst. exists h, (convert_to_numba h). rewrite means_iff. split; [|easy].
      left. now apply (hints_declared _ _ _ H).
    + destruct (dict_get s a) as [h|] eqn:F; [|easy]. intros [=]; subst.
      exists h, (convert_to_numba h). rewrite means_iff. split; [|easy]. right. split.
      * intros h' Hd. apply (hints_declared _ _ _ H) in Hd. congruence.
      * now apply (get_in _ _ _ Hs).
  - intros (h & n & Hd & Hm & ->). apply means_iff in Hm. subst n. destruct Hd as [Hd|[Hn Hi]].
    + apply (hints_declared _ _ _ H) in Hd. now rewrite Hd.
    + destruct (dict_get (get_type_hints c) a) as [h'|] eqn:E.
      * apply (hints_declared _ _ _ H) in E. now elim (Hn h').
      * apply (get_in _ _ _ Hs) in Hi. now rewrite Hi.
Qed.

Lemma set_same s k v : dict_get s k = Some v -> dict_set s k v = s.
Proof.
  induction s as [|[k' v'] s IH]; cbn; [easy|]. destruct (String.eqb_spec k' k) as [->|].
  - now intros [=]; subst.
  - intros H. now rewrite IH.
Qed.
Lemma assign_same s body : (forall a t, In (a, t) body -> dict_get s a = Some (Numba_type (convert_to_numba t))) ->
  fold_left (fun s '(attr, t) => dict_set s attr (Numba_type (convert_to_numba t))) body s = s.
Proof.
  induction body as [|[k v] body IH]; intros H; [reflexivity|]. cbn.
  rewrite set_same by (apply H; now left). apply IH. intros a t Hi. apply H. now right.
Qed.
Lemma convert_twice s : names_once s -> convert_spec (convert_spec s) = convert_spec s.
Proof.
  intros H. assert (H' : names_once (convert_spec s)).
  { now apply (assign_once (fun t => Numba_type (convert_to_numba t))). }
  unfold convert_spec at 1. apply assign_same. intros a t Hi.
  apply (get_in _ _ _ H') in Hi. rewrite Hi. rewrite convert_spec_get in Hi by exact H.
  destruct (dict_get s a); [|easy]. now injection Hi as <-.
Qed.

Lemma store_iff d d' : may_store (NArray d 1) (NArray d' 1) = true <-> d = d'.
Proof.
  unfold may_store. cbn [is_number andb orb]. destruct (ntype_eq_dec _ _) as [e|n].
  - split; [|reflexivity]. intros _. now injection e.
  - split; [easy|]. intros ->. now elim n.
Qed.

Fixpoint once (l : list string) : bool :=
  match l with [] => true | a :: l => (negb (existsb (String.eqb a) l) && once l)%bool end.
Lemma once_nodup l : once l = true -> NoDup l.
Proof.
  induction l as [|a l IH]; cbn; intros H; [constructor|]. apply andb_prop in H as [Ha Hl].
  constructor; [|now apply IH]. intros Hi. apply Bool.negb_true_iff in Ha.
  assert (E : existsb (String.eqb a) l = true) by (apply existsb_exists; exists a; split; [exact Hi|apply String.eqb_refl]).
  congruence.
Qed.
