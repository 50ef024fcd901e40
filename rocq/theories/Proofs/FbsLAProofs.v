(** The Legends Arceus classes read their contents. *)
From Coq Require Import NArith ZArith List Bool Lia.
From Verif Require Import Base.Word Model.Flatbuf Model.FbsLA Spec.FlatbufSpec Spec.FbsLASpec
  Proofs.FlatbufProofs.
Import ListNotations.
Open Scope N_scope.

(** ** Lookups *)
Definition eq_ok {K} (eqb : K -> K -> bool) : Prop := forall a b, eqb a b = true <-> a = b.
Lemma opt_eq_ok : eq_ok opt_eqb.
Proof.
  intros [a|] [b|]; cbn; split; intros H; try discriminate; try reflexivity.
  - apply Z.eqb_eq in H. now subst.
  - injection H as ->. apply Z.eqb_refl.
Qed.
Lemma sf_eq_ok : eq_ok sf_eqb.
Proof.
  intros [a b] [c d]. unfold sf_eqb. cbn [fst snd]. rewrite andb_true_iff, (opt_eq_ok a c), Z.eqb_eq.
  split; [intros [-> ->]; reflexivity|intros H; injection H as -> ->; now split].
Qed.
Lemma eq_refl_ok {K} (eqb : K -> K -> bool) a : eq_ok eqb -> eqb a a = true.
Proof. intros H. now apply H. Qed.

Lemma get_set {K V} (eqb : K -> K -> bool) (H : eq_ok eqb) (d : list (K * V)) k v k' :
  dict_get eqb (dict_set eqb d k v) k' = if eqb k k' then Ok v else dict_get eqb d k'.
Proof.
  unfold dict_get. induction d as [|[k0 v0] d IH]; cbn [dict_set find fst].
  - destruct (eqb k k'); reflexivity.
  - destruct (eqb k0 k) eqn:E; cbn [find fst].
    + apply H in E. subst k0. destruct (eqb k k'); reflexivity.
    + destruct (eqb k0 k') eqn:E'; [|exact IH].
      destruct (eqb k k') eqn:E''; [|reflexivity]. apply H in E', E''. subst. rewrite (eq_refl_ok eqb k' H) in E. discriminate.
Qed.
Lemma set_keys {K V} (eqb : K -> K -> bool) (H : eq_ok eqb) (d : list (K * V)) k v k' :
  In k' (map fst (dict_set eqb d k v)) <-> k' = k \/ In k' (map fst d).
Proof.
  induction d as [|[k0 v0] d IH]; cbn [dict_set map fst In]; [intuition|].
  destruct (eqb k0 k) eqn:E; cbn [map fst In].
  - apply H in E. subst k0. intuition.
  - rewrite IH. intuition.
Qed.
Lemma set_dict {K V} (eqb : K -> K -> bool) (H : eq_ok eqb) (d : list (K * V)) k v :
  is_dict d -> is_dict (dict_set eqb d k v).
Proof.
  unfold is_dict. induction d as [|[k0 v0] d IH]; cbn [dict_set map fst]; intros D; [repeat constructor; auto|].
  inversion D as [|? ? D1 D2]; subst. destruct (eqb k0 k) eqn:E; cbn [map fst]; constructor; auto.
  rewrite set_keys by exact H. intros [->|X]; [|contradiction]. rewrite (eq_refl_ok eqb k H) in E. discriminate.
Qed.
Lemma get_in {K V} (eqb : K -> K -> bool) (H : eq_ok eqb) (d : list (K * V)) k v :
  is_dict d -> dict_get eqb d k = Ok v <-> In (k, v) d.
Proof.
  unfold is_dict, dict_get. induction d as [|[k0 v0] d IH]; cbn [map fst find In]; intros D; [split; [discriminate|contradiction]|].
  inversion D as [|? ? D1 D2]; subst. destruct (eqb k0 k) eqn:E.
  - apply H in E. subst k0. split.
    + intros X. injection X as ->. now left.
    + intros [X|X]; [now injection X as ->|]. exfalso. apply D1. apply in_map_iff. now exists (k, v).
  - rewrite (IH D2). split; [now right|]. intros [X|X]; [|exact X]. injection X as -> ->.
    rewrite (eq_refl_ok eqb k H) in E. discriminate.
Qed.
Lemma get_key_error {K V} (eqb : K -> K -> bool) (H : eq_ok eqb) (d : list (K * V)) k :
  is_dict d -> dict_get eqb d k = Raise KeyError <-> forall v, ~ In (k, v) d.
Proof.
  intros D. split.
  - intros E v X. apply (get_in eqb H d k v D) in X. congruence.
  - intros X. destruct (dict_get eqb d k) as [v|e] eqn:E.
    + exfalso. now apply (X v), (get_in eqb H d k v D).
    + unfold dict_get in E. destruct (find _ d) as [[? ?]|]; congruence.
Qed.
Lemma last_snoc {A} (P : A -> Prop) l x y :
  last_with P (l ++ [y]) x <-> (P y /\ x = y) \/ (~ P y /\ last_with P l x).
Proof.
  split.
  - intros (b & a & E & Hx & Ha). destruct (rev a) as [|z r] eqn:R.
    + assert (a = []) as -> by (rewrite <- (rev_involutive a), R; reflexivity).
      apply app_inj_tail in E as [_ ->]. now left.
    + assert (Ea : a = rev r ++ [z]) by (rewrite <- (rev_involutive a), R; reflexivity). rewrite Ea in E, Ha.
      change (x :: rev r ++ [z]) with ((x :: rev r) ++ [z]) in E. rewrite app_assoc in E.
      apply app_inj_tail in E as [-> ->]. right. apply Forall_app in Ha as [Ha Hz]. inversion Hz; subst.
      split; [assumption|]. now exists b, (rev r).
  - intros [[H ->]|[H (b & a & -> & Hx & Ha)]].
    + exists l, []. now repeat constructor.
    + exists b, (a ++ [y]). rewrite <- app_assoc. split; [reflexivity|]. split; [exact Hx|].
      apply Forall_app. split; [exact Ha|]. now constructor.
Qed.
Lemma last_nil {A} (P : A -> Prop) x : ~ last_with P [] x.
Proof. intros (b & a & E & _). now destruct b. Qed.
Lemma by_is_dict {K V} (eqb : K -> K -> bool) (key : V -> K) (l : list V) : eq_ok eqb -> is_dict (dict_by eqb key l).
Proof.
  intros H. unfold dict_by. rewrite <- fold_left_rev_right.
  induction (rev l) as [|v r IH]; cbn [fold_right]; [constructor|now apply set_dict].
Qed.
Lemma by_looks_up {K V} (eqb : K -> K -> bool) (key : V -> K) (rel : V -> K -> Prop) (l : list V) : eq_ok eqb ->
  (forall v k, rel v k <-> key v = k) -> looks_up (dict_by eqb key l) rel l.
Proof.
  intros H R. pose proof (by_is_dict eqb key l H) as D. split; [exact D|]. intros k v.
  rewrite <- (get_in eqb H _ k v D). clear D. unfold dict_by. rewrite <- fold_left_rev_right.
  rewrite <- (rev_involutive l) at 2. revert v.
  induction (rev l) as [|w r IH]; intros v; cbn [fold_right rev]; [split; [discriminate|intros X; now apply last_nil in X]|].
  rewrite get_set by exact H. rewrite last_snoc, <- IH. destruct (eqb (key w) k) eqn:E.
  - apply H in E. assert (X : rel w k) by now apply R. split; [intros Y; injection Y as ->; auto|].
    intros [[_ ->]|[Y _]]; [reflexivity|contradiction].
  - assert (X : ~ rel w k) by (intros X; apply R, H in X; congruence). intuition.
Qed.
Lemma defaulted_ok x z : defaulted x z <-> or_zero x = z.
Proof.
  unfold defaulted, or_zero. destruct x as [y|]; split; intros H; intuition (try congruence).
Qed.
Lemma species_form_key (s f : option Z) (k : species_form) :
  (fst k = s /\ defaulted f (snd k)) <-> (s, or_zero f) = k.
Proof.
  rewrite defaulted_ok. destruct k as [a b]. cbn [fst snd]. split; [intros [-> ->]; reflexivity|].
  intros E. injection E as -> ->. now split.
Qed.

(** ** Readers *)
Ltac step H :=
  match type of H with
  | at_field ?buf ?pos ?o ?k ?st =>
      match goal with
      | |- context[read_init_padding ?n st] =>
          let H' := fresh "Hat" in pose proof (padding_at buf pos o k st n H) as H'; clear H; rename H' into H;
          let m := eval compute in (k + N.to_nat n)%nat in change (k + N.to_nat n)%nat with m in H;
          let s := fresh "st" in set (s := read_init_padding n st) in *; clearbody s
      | |- context[read_init_int ?t ?d st] =>
          let s := fresh "st" in let E := fresh "E" in let H' := fresh "Hat" in
          destruct (int_at buf pos o k st t d ltac:(cbn; lia) H) as (s & E & H'); [|rewrite E; clear E H; rename H' into H]
      | |- context[read_init_float ?t ?d st] =>
          let s := fresh "st" in let E := fresh "E" in let H' := fresh "Hat" in
          destruct (float_at buf pos o k st t d H) as (s & E & H'); [|rewrite E; clear E H; rename H' into H]
      | |- context[read_init_int_enum ?t to_bool None st] =>
          let s := fresh "st" in let E := fresh "E" in let H' := fresh "Hat" in
          destruct (bool_at buf pos o k st t H) as (s & E & H'); [|rewrite E; clear E H; rename H' into H]
      end
  end; cbn [rbind rmap].
Ltac scalar Hs := apply (proj1 (Forall_forall _ _) Hs); cbn [In seq]; tauto.

Lemma floats_ok buf pos o n : forall k st, at_field buf pos o k st -> scalars o 4 (seq k n) ->
  exists st', read_floats n st = Ok (floats_at o k n, st') /\ at_field buf pos o (k + n) st'.
Proof.
  induction n as [|n IH]; intros k st H Hs; cbn [read_floats].
  - exists st. rewrite Nat.add_0_r. now split.
  - unfold scalars in Hs. cbn [seq] in Hs. inversion Hs as [|? ? H1 H2]; subst.
    destruct (float_at buf pos o k st F32 (Some 0) H H1) as (st1 & -> & Ha). cbn [rbind].
    destruct (IH (S k) st1 Ha H2) as (st2 & -> & Hb). cbn [rmap].
    exists st2. split; [|now rewrite Nat.add_succ_r in *].
    unfold float_value, floats_at. cbn [seq map]. now destruct (field_of o k) as [[]|].
Qed.

(** Fields of objects, from a correct constructor. *)
Lemma vector_at {A} buf pos o k st (cls : list N -> N -> res A) P l : reads cls P ->
  at_field buf pos o k st -> vector_is P o k l ->
  exists st', read_init_object_array cls st = Ok (l, st') /\ at_field buf pos o (S k) st'.
Proof.
  intros Hc Hat Hv. apply array_field; [exact Hat|]. unfold vector_is in Hv.
  destruct (field_of o k) as [[| |os|]|]; try contradiction; [|exact Hv].
  clear Hat. induction Hv; constructor; [|assumption]. intros p Hp. now apply (Hc buf p x y).
Qed.
Lemma ref_at {A} buf pos o k st (cls : list N -> N -> res A) P x : reads cls P ->
  at_field buf pos o k st -> ref_is P o k x ->
  exists st', read_init_object cls None st = Ok (x, st') /\ at_field buf pos o (S k) st'.
Proof.
  intros Hc Hat Hv. apply object_field; [exact Hat|]. unfold ref_is in Hv.
  destruct (field_of o k) as [[|o'| |]|]; try contradiction; [|exact Hv].
  destruct Hv as (y & -> & Hy). exists y. split; [reflexivity|]. intros p Hp. now apply (Hc buf p o' y).
Qed.
Ltac start H Hat :=
  let s := fresh "st" in let E := fresh "E" in
  destruct (new_at _ _ _ H) as (s & E & Hat); rewrite E; clear E; cbn [rbind].

Lemma multiplier_reads : reads multiplier_new multiplier_is.
Proof.
  intros buf pos o m H (Hs & ->). unfold multiplier_new. start H Hat.
  step Hat; [scalar Hs|]. step Hat; [scalar Hs|].
  destruct (floats_ok buf pos o 4 2 _ Hat) as (s1 & -> & Ha).
  { apply Forall_forall. intros k Hk. cbn in Hk. scalar Hs. }
  cbn [rbind]. destruct (floats_ok buf pos o 8 6 _ Ha) as (s2 & -> & Hb); [|reflexivity].
  apply Forall_forall. intros k Hk. cbn in Hk. scalar Hs.
Qed.
Lemma misc_reads : reads misc_new misc_is.
Proof.
  intros buf pos o m H (Hs & ->). unfold misc_new. start H Hat.
  step Hat; [scalar Hs|]. step Hat; [scalar Hs|]. step Hat. step Hat; [scalar Hs|]. reflexivity.
Qed.
Lemma vec3f_reads : reads vec3f_new vec3f_is.
Proof.
  intros buf pos o m H (Hs & ->). unfold vec3f_new. start H Hat.
  step Hat; [scalar Hs|]. step Hat; [scalar Hs|]. step Hat; [scalar Hs|]. reflexivity.
Qed.
Lemma placement_reads : reads placement_new placement_is.
Proof.
  intros buf pos o v H Hv. unfold placement_new. start H Hat. step Hat.
  destruct (ref_at _ _ _ _ _ vec3f_new vec3f_is v vec3f_reads Hat Hv) as (s & E & _).
  unfold read_init_vec3f. rewrite E. reflexivity.
Qed.
Lemma f20_reads : reads spawner_f20_new (id_is 0).
Proof. intros buf pos o v H [Hs ->]. unfold spawner_f20_new. start H Hat. step Hat; [scalar Hs|]. reflexivity. Qed.
Lemma detail_reads : reads lottery_detail_new (id_is 0).
Proof. exact f20_reads. Qed.
Lemma wave_reads : reads second_wave_new (id_is 7).
Proof. intros buf pos o v H [Hs ->]. unfold second_wave_new. start H Hat. step Hat. step Hat; [scalar Hs|]. reflexivity. Qed.

Lemma spawner_reads : reads spawner_new spawner_is.
Proof.
  intros buf pos o s H (H8 & H4 & H1 & pl & pls & tb & tbs & Hp & Ht & ->). unfold spawner_new. start H Hat.
  step Hat; [scalar H8|]. step Hat; [scalar H8|].
  destruct (vector_at _ _ _ _ _ placement_new placement_is _ placement_reads Hat Hp) as (s1 & -> & Ha).
  cbn [rbind first]. step Ha. step Ha; [scalar H4|]. step Ha; [scalar H4|]. step Ha.
  step Ha; [scalar H1|]. step Ha; [scalar H1|]. step Ha; [scalar H1|]. step Ha.
  destruct (vector_at _ _ _ _ _ spawner_f20_new (id_is 0) _ f20_reads Ha Ht) as (s2 & -> & Hb). reflexivity.
Qed.
Lemma eligibility_reads : reads eligibility_new eligibility_is.
Proof.
  intros buf pos o m H (Hs & ->). unfold eligibility_new. start H Hat. step Hat.
  destruct (floats_ok buf pos o 4 7 _ Hat) as (s1 & -> & Ha).
  { apply Forall_forall. intros k Hk. cbn in Hk. scalar Hs. }
  cbn [rbind]. destruct (floats_ok buf pos o 8 11 _ Ha) as (s2 & -> & Hb); [|reflexivity].
  apply Forall_forall. intros k Hk. cbn in Hk. scalar Hs.
Qed.
Lemma oybn_reads : reads oybn_new oybn_is.
Proof.
  intros buf pos o alpha H (Hs & Ha). unfold oybn_new. start H Hat. step Hat; [scalar Hs|].
  destruct (bool_value o 0) as [[|]|] eqn:E0; cbn [truthy].
  - f_equal. symmetry. apply Ha. now left.
  - step Hat; [scalar Hs|]. f_equal. apply eq_true_iff_eq. rewrite Ha.
    destruct (bool_value o 1) as [[|]|]; cbn; intuition congruence.
  - step Hat; [scalar Hs|]. f_equal. apply eq_true_iff_eq. rewrite Ha.
    destruct (bool_value o 1) as [[|]|]; cbn; intuition congruence.
Qed.
Lemma slot_reads : reads slot8a_new slot_is.
Proof.
  intros buf pos o s H (Hs & e & alpha & He & Hy & ->). unfold slot8a_new. start H Hat.
  step Hat; [scalar Hs|]. step Hat. step Hat; [scalar Hs|]. step Hat; [scalar Hs|]. step Hat.
  step Hat; [scalar Hs|]. step Hat. step Hat; [scalar Hs|]. step Hat; [scalar Hs|]. step Hat; [scalar Hs|]. step Hat.
  destruct (ref_at _ _ _ _ _ eligibility_new eligibility_is _ eligibility_reads Hat He) as (s1 & -> & Ha). cbn [rbind].
  destruct (ref_at _ _ _ _ _ oybn_new oybn_is _ oybn_reads Ha Hy) as (s2 & -> & Hb). reflexivity.
Qed.
(** Objects that lack what the constructors ask for. *)
Lemma slot_incomplete buf pos o e : object_at buf pos o -> scalars o 4 [0; 2; 3; 25; 29; 30; 31]%nat ->
  ref_is eligibility_is o 45 e -> field_of o 46 = None -> slot8a_new buf pos = Raise AttributeError.
Proof.
  intros H Hs He Hy. unfold slot8a_new. start H Hat.
  step Hat; [scalar Hs|]. step Hat. step Hat; [scalar Hs|]. step Hat; [scalar Hs|]. step Hat.
  step Hat; [scalar Hs|]. step Hat. step Hat; [scalar Hs|]. step Hat; [scalar Hs|]. step Hat; [scalar Hs|]. step Hat.
  destruct (ref_at _ _ _ _ _ eligibility_new eligibility_is _ eligibility_reads Hat He) as (s1 & -> & Ha). cbn [rbind].
  destruct (ref_at _ _ _ _ _ oybn_new oybn_is None oybn_reads Ha) as (s2 & -> & Hb); [|reflexivity].
  unfold ref_is. rewrite Hy. reflexivity.
Qed.
Lemma spawner_incomplete buf pos o placements tables : object_at buf pos o ->
  scalars o 8 [0; 1]%nat -> scalars o 4 [7; 8]%nat -> scalars o 1 [10; 11; 12]%nat ->
  vector_is placement_is o 2 placements -> vector_is (id_is 0) o 20 tables -> placements = [] \/ tables = [] ->
  spawner_new buf pos = Raise IndexError.
Proof.
  intros H H8 H4 H1 Hp Ht E. unfold spawner_new. start H Hat.
  step Hat; [scalar H8|]. step Hat; [scalar H8|].
  destruct (vector_at _ _ _ _ _ placement_new placement_is _ placement_reads Hat Hp) as (s1 & -> & Ha).
  destruct placements as [|pl pls]; [reflexivity|]. destruct E as [E|E]; [discriminate|].
  cbn [rbind first]. step Ha. step Ha; [scalar H4|]. step Ha; [scalar H4|]. step Ha.
  step Ha; [scalar H1|]. step Ha; [scalar H1|]. step Ha; [scalar H1|]. step Ha.
  destruct (vector_at _ _ _ _ _ spawner_f20_new (id_is 0) _ f20_reads Ha Ht) as (s2 & -> & Hb). rewrite E. reflexivity.
Qed.
Lemma etable_reads : reads etable_new etable_is.
Proof.
  intros buf pos o t H (H8 & H4 & slots & Hv & ->). unfold etable_new. start H Hat.
  step Hat; [scalar H8|]. step Hat; [scalar H4|]. step Hat; [scalar H4|].
  destruct (vector_at _ _ _ _ _ slot8a_new slot_is _ slot_reads Hat Hv) as (s1 & -> & Ha). reflexivity.
Qed.
Lemma group_reads : reads group_new group_is.
Proof.
  intros buf pos o t H (H8 & waves & Hv & ->). unfold group_new. start H Hat. step Hat; [scalar H8|].
  destruct (vector_at _ _ _ _ _ second_wave_new (id_is 7) _ wave_reads Hat Hv) as (s1 & -> & Ha). cbn [rbind].
  step Ha; [scalar H8|]. reflexivity.
Qed.
Lemma lottery_reads : reads lottery_new lottery_is.
Proof.
  intros buf pos o t H (H8 & c & r1 & r2 & Hc & Hr1 & Hr2 & ->). unfold lottery_new. start H Hat. step Hat; [scalar H8|].
  destruct (vector_at _ _ _ _ _ lottery_detail_new (id_is 0) _ detail_reads Hat Hc) as (s1 & -> & H1). cbn [rbind].
  destruct (vector_at _ _ _ _ _ lottery_detail_new (id_is 0) _ detail_reads H1 Hr1) as (s2 & -> & H2). cbn [rbind].
  destruct (vector_at _ _ _ _ _ lottery_detail_new (id_is 0) _ detail_reads H2 Hr2) as (s3 & -> & H3). reflexivity.
Qed.

(** ** Whole files *)
Lemma root_vector {A} buf o (cls : list N -> N -> res A) P l : reads cls P ->
  root_at buf o -> vector_is P o 0 l ->
  exists st st', fbo_new buf None = Ok st /\ read_init_object_array cls st = Ok (l, st').
Proof.
  intros Hc Hr Hv. destruct (new_root buf o Hr) as (pos & st & E & Hat).
  destruct (vector_at _ _ _ _ _ cls P l Hc Hat Hv) as (st' & E' & _). now exists st, st'.
Qed.
