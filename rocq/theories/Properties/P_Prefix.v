(** C94: a Legends Arceus file that was cut short is not read as other data. *)
From Coq Require Import NArith ZArith List.
From Verif Require Import Base.Word Model.Flatbuf Model.FbsLA Model.EncounterLA.
From Verif Require Import Spec.FlatbufSpec Spec.PrefixSpec Proofs.FbsCase Proofs.PrefixProofs.
Import ListNotations.
Open Scope N_scope.

(** C94. For any bytes whatever: the first bytes of a file load as the whole file does or
    raise. *)
Theorem C94_cut_files :
  same_or_raises multiplier_table /\ same_or_raises misc_table /\ same_or_raises spawner_table /\
  same_or_raises etable_table /\ same_or_raises group_table /\ same_or_raises lottery_table /\
  forall mults infos, same_or_raises (load_encounter_tables_la mults infos).
Proof.
  exact (conj (cut_of_rest _ rest_multiplier) (conj (cut_of_rest _ rest_misc) (conj (cut_of_rest _ rest_spawner)
        (conj (cut_of_rest _ rest_etable) (conj (cut_of_rest _ rest_group) (conj (cut_of_rest _ rest_lottery)
        (fun mults infos => cut_of_rest _ (rest_encounters mults infos)))))))).
Qed.
Print Assumptions C94_cut_files.

(** Nor do bytes behind the end of a file matter. *)
Theorem C94_longer_files :
  ignores_the_rest multiplier_table /\ ignores_the_rest misc_table /\ ignores_the_rest spawner_table /\
  ignores_the_rest etable_table /\ ignores_the_rest group_table /\ ignores_the_rest lottery_table /\
  forall mults infos, ignores_the_rest (load_encounter_tables_la mults infos).
Proof.
  exact (conj rest_multiplier (conj rest_misc (conj rest_spawner (conj rest_etable (conj rest_group
        (conj rest_lottery rest_encounters)))))).
Qed.
Print Assumptions C94_longer_files.

(** The exceptions that any bytes can cause. *)
Theorem C94_exceptions :
  raises_only [StructError; TypeError] multiplier_table /\ raises_only [StructError; TypeError] misc_table /\
  raises_only [StructError; TypeError; IndexError] spawner_table /\
  raises_only [StructError; TypeError; AttributeError] etable_table /\
  raises_only [StructError; TypeError] group_table /\ raises_only [StructError; TypeError] lottery_table.
Proof. exact exn_tables. Qed.
Print Assumptions C94_exceptions.

(** A string, which none of these classes has, can lose its end without an exception: from a
    cut buffer come the first n of its bytes. *)
Theorem C94_string_actual : forall file keep pos k,
  let read f := read_init_string (mkFbo (mkTable f pos) pos k) in
  (exists e, read (firstn keep file) = Raise e) \/
  exists n b o o', read file = Ok (b, o) /\ read (firstn keep file) = Ok (firstn n b, o').
Proof. exact string_cut. Qed.
Print Assumptions C94_string_actual.

(** A file of three species: without its last byte it raises. A string at the end of a buffer
    loses its last letters. *)
Example C94_case :
  (exists v, misc_table misc_case_bytes = Ok v /\ length (fst v) = 3%nat) /\
  misc_table (firstn (length misc_case_bytes - 1) misc_case_bytes) = Raise StructError /\
  let read f := rmap fst (read_init_string (mkFbo (mkTable f 12) 12 4)) in
  let file := [12; 0; 0; 0; 6; 0; 8; 0; 4; 0; 0; 0; 8; 0; 0; 0; 4; 0; 0; 0; 3; 0; 0; 0; 77; 101; 119] in
  read file = Ok [77; 101; 119] /\ read (firstn 26 file) = Ok [77; 101].
Proof.
  split; [eexists; split; vm_compute; reflexivity|]. split; [vm_compute; reflexivity|].
  split; vm_compute; reflexivity.
Qed.
