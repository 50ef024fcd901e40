(** Proofs about Model/Patch.v. *)
From Coq Require Import NArith String List Bool Lia.
From Verif Require Import Base.Word Model.Patch Spec.PatchSpec.
Import ListNotations.
Open Scope list_scope.
Open Scope N_scope.

Lemma element_bitwidth : forall t bytes, element t bytes ->
  type_bitwidth t = Ok (bytes * 8) /\ is_buffer t = false.
Proof.
  intros [n [b|]|n i a|n d k l m a|n d s m a] bytes H; cbn in H; try contradiction; subst; cbn.
  - now rewrite N.mul_comm.
  - tauto.
Qed.

Definition unaligned_record (t : ntype) : bool :=
  match t with Record_ _ _ a => negb a | _ => false end.

Lemma new_nested_element : forall leaf bytes shape, element leaf bytes ->
  exists name, new_nested leaf shape =
    Ok (NestedArray name leaf shape true (negb (unaligned_record leaf))).
Proof.
  intros leaf bytes shape H. destruct (element_bitwidth leaf bytes H) as [Hb Hu].
  destruct leaf as [n [b|]|n i a|n d k l m a|n d s m a]; cbn in H; try contradiction;
    unfold new_nested; cbn [rbind]; rewrite Hb; cbn [rbind]; rewrite N.mod_mul by lia; cbn;
    eexists; reflexivity.
Qed.

Lemma new_nested_nested : forall leaf bytes name s mutable aligned shape, element leaf bytes ->
  exists name', new_nested (NestedArray name leaf s mutable aligned) shape =
    Ok (NestedArray name' leaf (shape ++ s) true (negb (unaligned_record leaf))).
Proof.
  intros leaf bytes name s mutable aligned shape H. destruct (element_bitwidth leaf bytes H) as [Hb Hu].
  destruct leaf as [n [b|]|n i a|n d k l m a|n d s' m a]; cbn in H; try contradiction;
    unfold new_nested; cbn -[type_bitwidth type_name str_shape String.append N.modulo];
    rewrite Hb; cbn [rbind]; rewrite N.mod_mul by lia; cbn -[String.append str_shape];
    eexists; reflexivity.
Qed.

Theorem tower_flat : forall leaf bytes shapes, element leaf bytes -> shapes <> [] ->
  exists name, tower leaf shapes =
    Ok (NestedArray name leaf (concat shapes) true (negb (unaligned_record leaf))).
Proof.
  intros leaf bytes shapes H. induction shapes as [|s rest IH]; intros Hn; [now elim Hn|].
  cbn [tower concat]. destruct rest as [|s' rest].
  - cbn [tower rbind concat]. rewrite app_nil_r. now apply new_nested_element with bytes.
  - destruct IH as [name E]; [discriminate|]. rewrite E. cbn [rbind].
    now apply new_nested_nested with bytes.
Qed.

Theorem tower_holds : forall leaf bytes shapes t, element leaf bytes -> tower leaf shapes = Ok t ->
  holds t (concat shapes) leaf.
Proof.
  intros leaf bytes shapes t H E. destruct shapes as [|s rest].
  - cbn in E. injection E as <-. now apply holds_element with bytes.
  - destruct (tower_flat leaf bytes (s :: rest) H) as [name E']; [discriminate|].
    rewrite E in E'. injection E' as ->.
    rewrite <- (app_nil_r (concat (s :: rest))). apply holds_nested. now apply holds_element with bytes.
Qed.

Lemma elements_app : forall a b, elements (a ++ b) = elements a * elements b.
Proof.
  induction a as [|x a IH]; intros b; cbn [elements fold_right app].
  - now rewrite N.mul_1_l.
  - unfold elements in *. rewrite IH. lia.
Qed.

Theorem array_of_tower : forall leaf bytes shapes t ndim layout readonly aligned,
  element leaf bytes -> tower leaf shapes = Ok t -> In layout LAYOUTS ->
  exists name, new_array t ndim layout readonly None aligned =
    Ok (Array name leaf (ndim + N.of_nat (length (concat shapes))) layout (negb readonly)
          (aligned && (if shapes then negb (unaligned_record leaf) else true))).
Proof.
  intros leaf bytes shapes t ndim layout readonly aligned H E Hl.
  assert (HL : existsb (String.eqb layout) LAYOUTS = true).
  { apply existsb_exists. exists layout. split; [assumption|]. apply String.eqb_refl. }
  destruct (element_bitwidth leaf bytes H) as [_ Hu].
  destruct shapes as [|s rest].
  - cbn in E. injection E as <-. cbn [concat length N.of_nat]. rewrite N.add_0_r.
    unfold new_array, array_init, buffer_init.
    destruct leaf as [n b|n i a|n d k l m a|n d s m a]; cbn in Hu; try discriminate;
      cbn [is_buffer]; rewrite HL; cbn [rmap]; eexists; cbn [unaligned_record].
    + now destruct aligned.
    + now destruct aligned, a.
  - destruct (tower_flat leaf bytes (s :: rest) H) as [name E']; [discriminate|].
    rewrite E in E'. injection E' as ->.
    unfold new_array, array_init, buffer_init. rewrite Hu, HL. cbn [rmap].
    eexists. rewrite orb_false_r, negb_involutive, andb_true_r. reflexivity.
Qed.
