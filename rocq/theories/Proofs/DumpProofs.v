(** What dump_binary writes. *)
From Coq Require Import NArith ZArith List Bool.
From Verif Require Import Base.Word Model.Flatbuf Model.Dump Spec.DumpSpec.
Import ListNotations.
Open Scope N_scope.
Open Scope list_scope.

Definition bytes (o : fbo) : list N := t_bytes (fb_table o).
Lemma new_bytes buf offset o : fbo_new buf offset = Ok o -> bytes o = buf.
Proof.
  unfold fbo_new. intros H.
  destruct (match offset with Some o => Ok o | None => unpack_from 4 buf 0 end) as [p|e]; [|discriminate H].
  cbn [rbind] in H. destruct (enforce_uoffset (Z.of_N p)) as [q|e]; [|discriminate H].
  cbn [rmap] in H. injection H as <-. reflexivity.
Qed.
Lemma read_object_bytes o position default o' : (forall d, default = Some d -> bytes d = bytes o) ->
  read_object nested default o position = Ok (Some o') -> bytes o' = bytes o.
Proof.
  intros Hd. unfold read_object, read_present. intros H.
  destruct (table_offset (fb_table o) position) as [p|e]; [|discriminate H]. cbn [rbind] in H.
  destruct (N.eqb p 0).
  - injection H as H. now apply Hd.
  - destruct (table_indirect (fb_table o) (p + fb_offset o)) as [v|e]; [|discriminate H]. cbn [rbind] in H.
    destruct (nested (t_bytes (fb_table o)) v) as [x|e] eqn:E; [|discriminate H]. cbn [rmap] in H.
    injection H as <-. exact (new_bytes _ (Some v) _ E).
Qed.
Lemma items_bytes t n : forall offset l, read_items nested t offset n = Ok l -> forall x, In x l -> bytes x = t_bytes t.
Proof.
  induction n as [|n IH]; intros offset l H x I; cbn [read_items] in H.
  - injection H as <-. destruct I.
  - destruct (table_indirect t offset) as [v|e]; [|discriminate H]. cbn [rbind] in H.
    destruct (nested (t_bytes t) v) as [y|e] eqn:E; [|discriminate H]. cbn [rbind] in H.
    destruct (read_items nested t (offset + 4) n) as [r|e] eqn:R; [|discriminate H]. cbn [rmap] in H.
    injection H as <-. destruct I as [<-|I]; [exact (new_bytes _ (Some v) _ E)|exact (IH _ _ R x I)].
Qed.
Lemma array_bytes o position l x : read_object_array nested o position = Ok l -> In x l -> bytes x = bytes o.
Proof.
  unfold read_object_array, read_present. intros H I.
  destruct (table_offset (fb_table o) position) as [p|e]; [|discriminate H]. cbn [rbind] in H.
  destruct (N.eqb p 0).
  - injection H as <-. destruct I.
  - destruct (table_vector (fb_table o) p) as [a|e]; [|discriminate H]. cbn [rbind] in H.
    destruct (table_vector_len (fb_table o) p) as [n|e]; [|discriminate H]. cbn [rbind] in H.
    exact (items_bytes _ _ _ _ H x I).
Qed.
Lemma object_bytes file o : object_of file o -> bytes o = file.
Proof.
  induction 1 as [o H|A read o v o' _ IH H|n o _ IH|o position default o' _ IH _ ID H|o position l o' _ IH H I].
  - exact (new_bytes _ _ _ H).
  - unfold read_init in H. destruct (read o (fb_counter o)) as [w|e]; [|discriminate H].
    cbn [rmap] in H. injection H as _ <-. exact IH.
  - exact IH.
  - rewrite (read_object_bytes o position default o'); [exact IH| |exact H].
    intros d E. now rewrite (ID d E), IH.
  - rewrite (array_bytes o position l o' H I). exact IH.
Qed.
Lemma dump_whole file o stream : object_of file o -> dump_binary o stream = stream ++ file.
Proof. intros H. unfold dump_binary. f_equal. exact (object_bytes file o H). Qed.
