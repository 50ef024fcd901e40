(** C100: writing FlatBuffer objects. *)
From Coq Require Import NArith List.
From Verif Require Import Base.Word Model.Flatbuf Model.Dump Spec.DumpSpec Proofs.DumpProofs.
Import ListNotations.

(** C100. Whatever has been read from a file, and from whichever object of it, dump_binary appends
    the whole file to the stream. *)
Theorem C100_whole_file : forall file o stream, object_of file o -> dump_binary o stream = stream ++ file.
Proof. exact dump_whole. Qed.
Print Assumptions C100_whole_file.

(** So what is written to a new file reads back as the root object, also if an inner object was
    written. *)
Theorem C100_reads_back : forall file o root, object_of file o -> fbo_new file None = Ok root ->
  fbo_new (dump_binary o []) None = Ok root.
Proof. intros file o root H R. now rewrite (dump_whole file o [] H). Qed.
Print Assumptions C100_reads_back.

(** A file with a root table at 12 whose only field is a table at 24, which has no fields. Written
    from the inner table, the file reads back as the root, not as the inner table. *)
Definition case_file : list N :=
  [12; 0; 0; 0;  6; 0; 8; 0; 4; 0; 0; 0;  8; 0; 0; 0; 8; 0; 0; 0;  4; 0; 4; 0;  4; 0; 0; 0]%N.
Example C100_case : exists o inner,
  fbo_new case_file None = Ok o /\ object_of case_file o /\
  read_object nested None o 4 = Ok (Some inner) /\ object_of case_file inner /\
  t_pos (fb_table o) = 12%N /\ t_pos (fb_table inner) = 24%N /\
  fbo_new (dump_binary inner []) None = Ok o.
Proof.
  eexists. eexists.
  match goal with |- ?A /\ _ => assert (HA : A) by reflexivity end.
  split; [exact HA|]. assert (R := root case_file _ HA). split; [exact R|].
  match goal with |- ?B /\ _ => assert (HB : B) by (vm_compute; reflexivity) end.
  split; [exact HB|]. split; [|repeat split].
  refine (in_field case_file _ 4 None _ R _ HB). discriminate.
Qed.
