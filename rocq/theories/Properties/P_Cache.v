(** C56 and C57: the pickle cache. *)
From Coq Require Import NArith Arith String List Lia.
From Verif Require Import Base.Word Model.FbsLA Model.EncounterLA Model.Cache Spec.CacheSpec Proofs.CacheProofs.
Import ListNotations.
Open Scope list_scope.

(** C57. Each call returns the function's result and leaves valid files, whatever the
    results of other calls; an empty directory is valid. *)
Theorem C57_transparent_partial : forall K V P (c : cached K V P), pickles c -> separate c ->
  valid c no_files /\
  forall f k name, valid c f -> c_file c k = Ok name ->
    o_result (call c Never f k) = Some (c_function c k) /\ valid c (o_files (call c Never f k)).
Proof.
  intros K V P c Hp Hs. split; [exact (no_files_valid c)|]. intros f k name. exact (call_ok c Hp Hs f k name).
Qed.
Print Assumptions C57_transparent_partial.

(** So every call of every sequence of calls does. *)
Theorem C57_sequences_partial : forall K V P (c : cached K V P), pickles c -> separate c ->
  forall l, (forall k, In k l -> exists name, c_file c k = Ok name) ->
  map o_result (calls c no_files (map (pair Never) l)) = map (fun k => Some (c_function c k)) l.
Proof.
  intros K V P c Hp Hs l. generalize (no_files_valid c). generalize no_files.
  induction l as [|k l IH]; intros f Hv Hl; [reflexivity|]. cbn [map calls]. cbv zeta.
  destruct (Hl k (or_introl eq_refl)) as (name & Hn). destruct (call_ok c Hp Hs f k name Hv Hn) as [E Hv'].
  cbn [map]. rewrite E. f_equal. apply IH; [exact Hv'|]. intros k' H. apply Hl. now right.
Qed.
Print Assumptions C57_sequences_partial.

(** After a call that returned, the function does not run again for its arguments, whatever
    else is called in between. *)
Theorem C57_runs_once : forall K V P (c : cached K V P), pickles c ->
  forall f k name v l, valid c f -> c_file c k = Ok name -> c_function c k = Ok v ->
  o_runs (call c Never (after c (o_files (call c Never f k)) l) k) = 0%nat.
Proof. intros K V P c Hp. exact (runs_once c Hp). Qed.
Print Assumptions C57_runs_once.

(** The two cached loaders: files are separate by argument, and decode undoes encode for
    every table that the Legends Arceus loader returns. *)
Theorem C57_files_separate : forall before a b name,
  format_file before a = Ok name -> format_file before b = Ok name -> argument a = argument b.
Proof. exact format_inj. Qed.
Print Assumptions C57_files_separate.
Theorem C57_la_round_trip : forall mults infos file d,
  load_encounter_tables_la mults infos file = Ok d -> decode_la (encode_la d) = d.
Proof. exact la_round_trip. Qed.
Print Assumptions C57_la_round_trip.

(** A call by keyword raises although the function itself returns: it is not run, and no file
    is touched. *)
Theorem C57_keyword_refuted : forall V P (function : arguments -> res V) (enc : V -> P) dec dumps loads before n s f,
  let o := call (mkCached _ _ _ (format_file before) function enc dec dumps loads) s f (Keyword n) in
  o_result o = Some (Raise IndexError) /\ o_files o = f /\ o_runs o = 0%nat.
Proof. repeat split. Qed.
Print Assumptions C57_keyword_refuted.

(** A file is never replaced once it has a byte, even if the function has changed since:
    the old result is returned. *)
Theorem C57_stale_refuted : forall K V P (old new : cached K V P) k name v l,
  pickles old -> c_file old k = Ok name -> c_file new k = Ok name ->
  c_loads new = c_loads old -> c_decode new = c_decode old -> c_function old k = Ok v ->
  o_result (call new Never (after new (o_files (call old Never no_files k)) l) k) = Some (Ok v).
Proof.
  intros K V P old new k name v l Hp Ho Hn El Ed Ef.
  destruct (call_stored old Hp no_files k name v (no_files_valid old) Ho Ef) as (b & data & H).
  unfold call at 1. rewrite Hn, (kept new l _ name b data H), El, Ed.
  assert (X : c_dumps old (c_encode old v) = b :: data).
  { unfold call in H. rewrite Ho in H. cbn [no_files] in H. rewrite Ef in H. cbn [o_files] in H.
    rewrite put_eq in H. now injection H. }
  destruct Hp as (P1 & _ & P3). rewrite <- X, P1. cbn [rmap o_result]. now rewrite (P3 k v Ef).
Qed.
Print Assumptions C57_stale_refuted.

(** C57. However a call ends, the function ran once if the file of its arguments was missing or
    empty, and not at all if the file held a byte or the arguments could not be formatted. *)
Theorem C57_runs : forall K V P (c : cached K V P) s f k,
  o_runs (call c s f k) =
  match c_file c k with
  | Raise _ => 0%nat
  | Ok name => match f name with Some (_ :: _) => 0%nat | _ => 1%nat end
  end.
Proof.
  intros K V P c s f k. unfold call. destruct (c_file c k) as [name|e]; [|reflexivity].
  destruct (f name) as [[|b data]|]; destruct s; try reflexivity; destruct (c_function c k); reflexivity.
Qed.
Print Assumptions C57_runs.

(** C56. A stop before the first or after the last byte of the file is harmless: later
    calls return the function's result. *)
Theorem C56_partial : forall K V P (c : cached K V P), pickles c -> separate c ->
  forall f l k name, valid c f -> c_file c k = Ok name ->
  Forall (fun '(s, k) => match s with
    | Never | Before_open | Written 0 => True
    | Written n => forall v, c_function c k = Ok v -> (length (c_dumps c (c_encode c v)) <= n)%nat
    end) l ->
  o_result (call c Never (after c f l) k) = Some (c_function c k).
Proof.
  intros K V P c Hp Hs f l k name Hv Hn Hl. apply (call_ok c Hp Hs _ k name); [|exact Hn].
  now apply (after_valid c Hp Hs).
Qed.
Print Assumptions C56_partial.

(** A stop at any other byte makes every later call raise, for ever. *)
Theorem C56_refuted : forall K V P (c : cached K V P), detects_truncation c ->
  forall f k name v n l, c_file c k = Ok name -> c_function c k = Ok v ->
  (f name = None \/ f name = Some []) -> (0 < n < length (c_dumps c (c_encode c v)))%nat ->
  exists e, o_result (call c Never (after c (o_files (call c (Written n) f k)) l) k) = Some (Raise e).
Proof. intros K V P c Ht f k name v n l. exact (torn c f k name v n l Ht). Qed.
Print Assumptions C56_refuted.

(** A cached function with a simple format: the length, then the bytes. *)
Definition case_cached : cached arguments (list N) (list N) :=
  mkCached _ _ _ (format_file ENCOUNTER_3_FILE) (fun a => Ok [argument a; 7; 9]%N) (fun v => v) (fun v => v)
    (fun p => N.of_nat (length p) :: p)
    (fun d => match d with
      | n :: p => if N.eqb n (N.of_nat (length p)) then Ok p else Raise UnpicklingError
      | [] => Raise UnpicklingError
      end).
Example C56_C57_case :
  pickles case_cached /\ separate case_cached /\ detects_truncation case_cached /\
  c_file case_cached (Positional 8) = Ok "encounter_3_8.pkl"%string /\
  o_result (call case_cached Never no_files (Positional 8)) = Some (Ok [8; 7; 9]%N) /\
  o_result (call case_cached Never (o_files (call case_cached (Written 2) no_files (Positional 8))) (Positional 8))
  = Some (Raise UnpicklingError).
Proof.
  split; [|split; [|split]].
  - split; [|split].
    + intros p. cbn. now rewrite N.eqb_refl.
    + discriminate.
    + reflexivity.
  - intros k k' name H1 H2. cbn. now rewrite (format_inj _ k k' name H1 H2).
  - intros p n H. cbn [c_dumps case_cached length] in H. destruct n as [|n]; [lia|].
    exists UnpicklingError. cbn [c_loads c_dumps case_cached firstn].
    destruct (N.eqb_spec (N.of_nat (length p)) (N.of_nat (length (firstn n p)))) as [E|E]; [|reflexivity].
    rewrite firstn_length in E. lia.
  - repeat split; vm_compute; reflexivity.
Qed.
