(** C97: when numba is used. C98: the array types of patch.py. *)
From Coq Require Import NArith String List Bool Lia.
From Verif Require Import Base.Word Model.Options Model.Patch Spec.PatchSpec Proofs.PatchProofs.
Import ListNotations.
Open Scope string_scope.
Open Scope list_scope.
Open Scope N_scope.

(** C97. Numba is used exactly if it is installed and NPP_USE_NUMBA is absent or TRUE;
    nothing else in the environment and no other package matters. *)
Theorem C97_numba : forall environment find_spec,
  mode_of (import_options environment find_spec) = Numba <->
  find_spec "numba" = true /\
  (environment "NPP_USE_NUMBA" = None \/ environment "NPP_USE_NUMBA" = Some "TRUE").
Proof.
  intros environment find_spec. unfold import_options, mode_of.
  destruct (environment "NPP_USE_NUMBA") as [v|]; [destruct (String.eqb_spec v "TRUE") as [->|Hv]|];
    cbn [String.eqb]; rewrite ?String.eqb_refl; destruct (find_spec "numba"); cbn; intuition congruence.
Qed.
Print Assumptions C97_numba.

(** One warning is given exactly if numba was to be used and is not installed. *)
Theorem C97_warning : forall environment find_spec,
  warnings (import_options environment find_spec) =
    (if find_spec "numba" then 0 else
     match environment "NPP_USE_NUMBA" with
     | None => 1
     | Some v => if string_dec v "TRUE" then 1 else 0
     end)%nat.
Proof.
  intros environment find_spec. unfold import_options.
  destruct (environment "NPP_USE_NUMBA") as [v|]; [destruct (string_dec v "TRUE") as [->|Hv]|];
    cbn [String.eqb]; rewrite ?String.eqb_refl; destruct (find_spec "numba"); try reflexivity;
    apply String.eqb_neq in Hv; rewrite Hv; reflexivity.
Qed.
Print Assumptions C97_warning.

Example C97_case :
  mode_of (import_options (fun _ => None) (fun p => String.eqb p "numba")) = Numba /\
  mode_of (import_options (fun _ => Some "1") (fun p => String.eqb p "numba")) = NumPy /\
  import_options (fun _ => None) (fun _ => false) = mkOptions false 1.
Proof. repeat split. Qed.

(** C98. However deeply array types are nested, making the type works, and the result is
    one nested array of the innermost elements with all dimensions, outermost first. *)
Theorem C98_nested : forall leaf bytes shapes, element leaf bytes -> shapes <> [] ->
  exists name aligned, tower leaf shapes = Ok (NestedArray name leaf (concat shapes) true aligned).
Proof.
  intros leaf bytes shapes H Hn. destruct (tower_flat leaf bytes shapes H Hn) as [name E].
  now exists name, (negb (unaligned_record leaf)).
Qed.
Print Assumptions C98_nested.

(** So it holds as many elements as the nested arrays do. *)
Theorem C98_size : forall leaf bytes shapes t dims, element leaf bytes -> tower leaf shapes = Ok t ->
  holds t dims leaf -> elements dims = fold_right N.mul 1 (map elements shapes).
Proof.
  intros leaf bytes shapes t dims H E Hh.
  assert (Hd : dims = concat shapes).
  { destruct shapes as [|s rest].
    - cbn in E. injection E as <-. inversion Hh; subst; [reflexivity|]. cbn in H. contradiction.
    - destruct (tower_flat leaf bytes (s :: rest) H) as [name E']; [discriminate|].
      rewrite E in E'. injection E' as ->. inversion Hh as [|? ? ? ? ? dims' ? Hin]; subst.
      + cbn in *. contradiction.
      + inversion Hin; subst; [now rewrite app_nil_r|]. cbn in H. contradiction. }
  subst dims. clear. induction shapes as [|s rest IH]; [reflexivity|].
  cbn [concat map fold_right]. now rewrite elements_app, IH.
Qed.
Print Assumptions C98_size.

(** An array of such a type is an array of the innermost elements with as many dimensions
    as both have together. *)
Theorem C98_array : forall leaf bytes shapes t ndim layout readonly aligned,
  element leaf bytes -> tower leaf shapes = Ok t -> In layout ["C"; "F"; "CS"; "FS"; "A"] ->
  exists name is_aligned, new_array t ndim layout readonly None aligned =
    Ok (Array name leaf (ndim + N.of_nat (length (concat shapes))) layout (negb readonly) is_aligned).
Proof.
  intros leaf bytes shapes t ndim layout readonly aligned H E Hl.
  destruct (array_of_tower leaf bytes shapes t ndim layout readonly aligned H E Hl) as [name E'].
  eexists _, _. exact E'.
Qed.
Print Assumptions C98_array.

(** It is aligned if it is asked to be and its elements are not unaligned records; records
    inside a nested array are not looked at. *)
Theorem C98_alignment_actual : forall leaf bytes shapes t ndim layout readonly aligned a,
  element leaf bytes -> tower leaf shapes = Ok t ->
  new_array t ndim layout readonly None aligned = Ok a ->
  match a with
  | Array _ _ _ _ _ is_aligned =>
      is_aligned = true <->
      aligned = true /\ (shapes <> [] \/ forall name itemsize, leaf <> Record_ name itemsize false)
  | _ => False
  end.
Proof.
  intros leaf bytes shapes t ndim layout readonly aligned a H E Ea.
  assert (Hl : In layout LAYOUTS).
  { destruct (existsb (String.eqb layout) LAYOUTS) eqn:X.
    - apply existsb_exists in X. destruct X as [l [Hl El]]. apply String.eqb_eq in El. now subst.
    - exfalso. revert Ea. unfold new_array, array_init, buffer_init. rewrite X.
      destruct t as [n b|n i al|n d k l m al|n d s m al]; cbn; try discriminate.
      destruct (is_buffer d); discriminate. }
  destruct (array_of_tower leaf bytes shapes t ndim layout readonly aligned H E Hl) as [name E'].
  rewrite Ea in E'. injection E' as ->.
  rewrite andb_true_iff. apply and_iff_compat_l. destruct shapes as [|s rest].
  - destruct leaf as [n b|n i al|n d k l m al|n d s m al]; cbn in *; try contradiction.
    + split; [|reflexivity]. intros _. right. discriminate.
    + destruct al; cbn; split; intros X.
      * right. congruence.
      * reflexivity.
      * discriminate.
      * destruct X as [X|X]; [now elim X|]. now elim (X n i).
  - split; [|reflexivity]. intros _. left. discriminate.
Qed.
Print Assumptions C98_alignment_actual.

(** The slots of an area: records of 4 bytes, 3 by 12 of them. *)
Example C98_case :
  let slot := Record_ "Slot3" 4 false in
  element slot 4 /\
  match rbind (tower slot [[3]; [12]]) (fun t => new_array t 1 "C" true None true) with
  | Ok (Array name d ndim _ mutable aligned) =>
      name = "readonly array(Slot3, 3d, C)" /\ d = slot /\ ndim = 3 /\ mutable = false /\ aligned = true
  | _ => False
  end.
Proof. repeat split. Qed.
