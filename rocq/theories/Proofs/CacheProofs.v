(** The pickle cache. *)
From Coq Require Import NArith Arith String List Bool Lia DecimalString DecimalN Decimal DecimalFacts DecimalPos.
From Verif Require Import Base.Word Model.FbsLA Model.EncounterLA Model.Cache Spec.CacheSpec Proofs.FbsLAProofs.
Import ListNotations.
Open Scope list_scope.

Section Cached.
Context {K V P : Type} (c : cached K V P) (Hp : pickles c) (Hs : separate c).

Lemma no_files_valid : valid c no_files.
Proof. intros k name b data _ H. discriminate. Qed.
Lemma put_eq f n d : put f n d n = Some d.
Proof. unfold put. now rewrite String.eqb_refl. Qed.
Lemma put_ne f n d m : m <> n -> put f n d m = f m.
Proof. unfold put. intros H. destruct (String.eqb_spec m n); [contradiction|reflexivity]. Qed.

(** One call without a stop. *)
Lemma call_ok f k name : valid c f -> c_file c k = Ok name ->
  o_result (call c Never f k) = Some (c_function c k) /\ valid c (o_files (call c Never f k)).
Proof.
  intros Hv Hn. destruct Hp as (P1 & P2 & P3). unfold call. rewrite Hn.
  assert (G : valid c (o_files (match c_function c k with
    | Raise e => mkOutcome (Some (Raise e)) f 1
    | Ok v => mkOutcome (Some (Ok v)) (put f name (c_dumps c (c_encode c v))) 1 end)) /\
    o_result (match c_function c k with
    | Raise e => mkOutcome (Some (Raise e)) f 1
    | Ok v => mkOutcome (Some (Ok v)) (put f name (c_dumps c (c_encode c v))) 1 end) = Some (c_function c k)).
  { destruct (c_function c k) as [v|e] eqn:E; cbn [o_files o_result]; [|now split]. split; [|reflexivity].
    intros k' name' b data Hk' H. destruct (String.eqb_spec name' name) as [->|Hne].
    - rewrite put_eq in H. injection H as H. exists v. split; [|exact H]. rewrite <- E. apply (Hs k' k name Hk' Hn).
    - rewrite put_ne in H by exact Hne. exact (Hv k' name' b data Hk' H). }
  destruct (f name) as [[|b data]|] eqn:Ef; try (split; apply G).
  cbn [o_result o_files]. split; [|exact Hv]. destruct (Hv k name b data Hn Ef) as (v & E & Hd).
  rewrite <- Hd, P1, E. cbn [rmap]. now rewrite (P3 k v E).
Qed.

(** A stop that writes nothing or everything keeps the files valid. *)
Definition harmless (s : stop) (k : K) : Prop :=
  match s with
  | Never | Before_open | Written 0 => True
  | Written n => forall v, c_function c k = Ok v -> (length (c_dumps c (c_encode c v)) <= n)%nat
  end.
Lemma call_valid f s k : valid c f -> harmless s k -> valid c (o_files (call c s f k)).
Proof.
  intros Hv Hh. destruct (c_file c k) as [name|e] eqn:Hn.
  2:{ unfold call. rewrite Hn. exact Hv. }
  destruct s as [| |n]; [exact (proj2 (call_ok f k name Hv Hn))| |]; unfold call; rewrite Hn.
  - destruct (f name) as [[|b data]|]; try exact Hv; destruct (c_function c k); exact Hv.
  - assert (G : forall v, c_function c k = Ok v -> valid c (put f name (firstn n (c_dumps c (c_encode c v))))).
    { intros v E k' name' b data Hk' H. destruct (String.eqb_spec name' name) as [->|Hne].
      - rewrite put_eq in H. injection H as H. destruct n as [|n]; [discriminate|].
        rewrite firstn_all2 in H by now apply Hh. exists v. split; [|exact H]. rewrite <- E. apply (Hs k' k name Hk' Hn).
      - rewrite put_ne in H by exact Hne. exact (Hv k' name' b data Hk' H). }
    destruct (f name) as [[|b data]|]; try exact Hv; destruct (c_function c k) as [v|e] eqn:E; try exact Hv; now apply G.
Qed.
Lemma after_valid : forall l f, valid c f -> Forall (fun '(s, k) => harmless s k) l -> valid c (after c f l).
Proof.
  induction l as [|[s k] l IH]; intros f Hv H; [exact Hv|]. cbn [after]. inversion H; subst.
  apply IH; [|assumption]. now apply call_valid.
Qed.

(** A call runs the function only if no earlier call has stored its result. *)
Lemma call_stored f k name v : valid c f -> c_file c k = Ok name -> c_function c k = Ok v ->
  exists b data, o_files (call c Never f k) name = Some (b :: data).
Proof.
  intros Hv Hn E. unfold call. rewrite Hn, E. destruct Hp as (_ & P2 & _).
  destruct (f name) as [[|b data]|] eqn:Ef; cbn [o_files].
  2: now exists b, data.
  all: rewrite put_eq; destruct (c_dumps c (c_encode c v)) as [|b data] eqn:Ed; [now apply P2 in Ed|now exists b, data].
Qed.
Lemma call_kept f s k name b data : f name = Some (b :: data) -> o_files (call c s f k) name = Some (b :: data).
Proof.
  intros H. unfold call. destruct (c_file c k) as [name'|e]; [|exact H].
  destruct (String.eqb_spec name name') as [<-|Hne].
  - rewrite H. now destruct s.
  - destruct (f name') as [[|b' d']|]; [|now destruct s|];
      (destruct (c_function c k); [|exact H]; destruct s; cbn [o_files]; try exact H; now rewrite put_ne).
Qed.
Lemma kept : forall l f name b data, f name = Some (b :: data) -> after c f l name = Some (b :: data).
Proof. induction l as [|[s k] l IH]; intros f name b data H; cbn [after]; [exact H|]. now apply IH, call_kept. Qed.
Lemma runs_once f k name v l : valid c f -> c_file c k = Ok name -> c_function c k = Ok v ->
  o_runs (call c Never (after c (o_files (call c Never f k)) l) k) = 0%nat.
Proof.
  intros Hv Hn E. destruct (call_stored f k name v Hv Hn E) as (b & data & H).
  unfold call at 1. rewrite Hn, (kept l _ name b data H). reflexivity.
Qed.

(** A stop in the middle of the write. *)
Lemma torn f k name v n l : detects_truncation c -> c_file c k = Ok name -> c_function c k = Ok v ->
  (f name = None \/ f name = Some []) -> (0 < n < length (c_dumps c (c_encode c v)))%nat ->
  exists e, o_result (call c Never (after c (o_files (call c (Written n) f k)) l) k) = Some (Raise e).
Proof.
  intros Ht Hn E Hf Hl. destruct (Ht _ n Hl) as (e & He). exists e.
  assert (H : exists b data, firstn n (c_dumps c (c_encode c v)) = b :: data /\
    o_files (call c (Written n) f k) name = Some (b :: data)).
  { destruct (firstn n (c_dumps c (c_encode c v))) as [|b data] eqn:Ed.
    - exfalso. apply (f_equal (@length _)) in Ed. rewrite firstn_length in Ed. cbn in Ed. lia.
    - exists b, data. split; [reflexivity|]. unfold call. rewrite Hn.
      destruct Hf as [-> | ->]; rewrite E; cbn [o_files]; rewrite put_eq, Ed; reflexivity. }
  destruct H as (b & data & Ed & H). unfold call at 1. rewrite Hn, (kept l _ name b data H), <- Ed, He. reflexivity.
Qed.
End Cached.

(** ** File names *)
Lemma decimal_inj m n : decimal m = decimal n -> m = n.
Proof.
  unfold decimal. intros H.
  assert (G : forall d, d <> Nil -> NilZero.uint_of_string (NilZero.string_of_uint d) = Some d) by exact NilZero.usu.
  assert (NN : forall n, N.to_uint n <> Nil).
  { intros [|p]; [discriminate|]. cbn. apply Unsigned.to_uint_nonnil. }
  apply (f_equal NilZero.uint_of_string) in H. rewrite !G in H by apply NN. injection H as H.
  now apply DecimalN.Unsigned.to_uint_inj.
Qed.
Lemma append_inj_l s : forall a b, (s ++ a = s ++ b)%string -> a = b.
Proof. induction s as [|x s IH]; intros a b H; [exact H|]. cbn in H. injection H as H. now apply IH. Qed.
Lemma append_inj_r t : forall a b, (a ++ t = b ++ t)%string -> a = b.
Proof.
  assert (L : forall a b, String.length (a ++ b) = (String.length a + String.length b)%nat).
  { induction a as [|x a IH]; intros b; cbn; [reflexivity|]. now rewrite IH. }
  induction a as [|x a IH]; intros [|y b] H; cbn in *.
  - reflexivity.
  - exfalso. apply (f_equal String.length) in H. cbn in H. rewrite L in H. lia.
  - exfalso. apply (f_equal String.length) in H. cbn in H. rewrite L in H. lia.
  - injection H as -> H. now rewrite (IH b H).
Qed.
Lemma format_inj before a b name : format_file before a = Ok name -> format_file before b = Ok name ->
  argument a = argument b.
Proof.
  destruct a as [m|m], b as [n|n]; cbn [format_file argument]; intros H1 H2; try discriminate.
  injection H1 as H1. injection H2 as H2. rewrite <- H2 in H1. apply append_inj_l, append_inj_r in H1. now apply decimal_inj.
Qed.

(** ** Legends Arceus tables *)
Open Scope N_scope.
Lemma set_fresh {V} (d : list (N * V)) k v : ~ In k (map fst d) -> dict_set N.eqb d k v = d ++ [(k, v)].
Proof.
  induction d as [|[k' v'] d IH]; cbn; intros H; [reflexivity|].
  destruct (N.eqb_spec k' k); [exfalso; apply H; now left|]. rewrite IH; [reflexivity|]. intros X. apply H. now right.
Qed.
Lemma decode_encode : forall d, NoDup (map fst d) -> decode_la (encode_la d) = d.
Proof.
  assert (G : forall d acc, NoDup (map fst (acc ++ d)) ->
    fold_left (fun d '(k, (id, slots)) => dict_set N.eqb d k (mkAreaLA id slots)) (encode_la d) acc = acc ++ d).
  { induction d as [|[k a] d IH]; intros acc H; cbn [encode_la map fold_left]; [now rewrite List.app_nil_r|].
    rewrite set_fresh.
    - assert (E : mkAreaLA (al_table_id a) (al_slots a) = a) by now destruct a.
      rewrite E. change (map _ d) with (encode_la d). rewrite IH; rewrite <- List.app_assoc; [reflexivity|exact H].
    - rewrite map_app in H. cbn [map fst] in H. intros X. apply NoDup_remove_2 in H. apply H, in_or_app. now left. }
  intros d H. unfold decode_la. now rewrite G.
Qed.
Lemma set_keys {V} (d : list (N * V)) k v : NoDup (map fst d) -> NoDup (map fst (dict_set N.eqb d k v)).
Proof.
  assert (I : forall d x, In x (map fst (dict_set N.eqb d k v)) -> x = k \/ In x (map fst d)).
  { induction d0 as [|[k' v'] d0 IH]; cbn; intros x H; [destruct H as [H|[]]; auto|].
    destruct (k' =? k); cbn in H; destruct H as [H|H]; auto. apply IH in H. tauto. }
  induction d as [|[k' v'] d IH]; cbn; intros H; [repeat constructor; tauto|].
  inversion H; subst. destruct (N.eqb_spec k' k); cbn; [now constructor|].
  constructor; [|now apply IH]. intros X. apply I in X. tauto.
Qed.
Lemma load_areas_keys mults infos : forall l d d', NoDup (map fst d) ->
  load_areas mults infos l d = Ok d' -> NoDup (map fst d').
Proof.
  induction l as [|t l IH]; intros d d' H E; cbn [load_areas] in E; [injection E as <-; exact H|].
  destruct (load_area mults infos t) as [a|]; [|discriminate]. cbn [rbind] in E. apply (IH _ _ (set_keys d _ a H) E).
Qed.
Lemma la_round_trip mults infos file d : load_encounter_tables_la mults infos file = Ok d ->
  decode_la (encode_la d) = d.
Proof.
  unfold load_encounter_tables_la. destruct (etable_table file) as [[tables x]|]; [|discriminate]. cbn [rbind].
  intros H. apply decode_encode. apply (load_areas_keys mults infos tables [] d); [constructor|exact H].
Qed.
