(** Reading the Legends Arceus tables from a trie instead of a list of bytes: the functions
    of Model/Flatbuf.v and Model/FbsLA.v again over a reader [get], and the proof that they
    agree with the model. *)
From Coq Require Import NArith ZArith List Bool Lia Arith.
From Verif Require Import Base.Word Model.Flatbuf Model.FbsLA Model.Trie.
Import ListNotations.
Open Scope N_scope.

(** ** The reader *)
Fixpoint bytes_from (t : trie) (off : N) (w : nat) : N :=
  match w with O => 0 | S w' => byte_at t off + 256 * bytes_from t (N.succ off) w' end.
Definition trie_get (t : trie) (size : N) (w : nat) (off : N) : res N :=
  if off + N.of_nat w <=? size then Ok (bytes_from t off w) else Raise StructError.

Lemma seq_part s : forall n off w, (off + w <= n)%nat -> firstn w (skipn off (seq s n)) = seq (s + off) w.
Proof.
  intros n off. revert s n. induction off as [|off IH]; intros s n w H.
  - cbn [skipn]. rewrite Nat.add_0_r. revert s n H. induction w as [|w IH]; intros s n H; [reflexivity|].
    destruct n as [|n]; [lia|]. cbn [seq firstn]. f_equal. apply IH. lia.
  - destruct n as [|n]; [lia|]. cbn [seq skipn]. rewrite IH by lia. f_equal. lia.
Qed.
Lemma bytes_from_ok t : forall w off,
  bytes_from t off w = le_value (map (fun i => byte_at t (N.of_nat i)) (seq (N.to_nat off) w)).
Proof.
  induction w as [|w IH]; intros off; [reflexivity|]. cbn [bytes_from seq map le_value fold_right].
  rewrite N2Nat.id, IH, N2Nat.inj_succ. reflexivity.
Qed.
Lemma trie_get_ok t size w off : unpack_from w (file_bytes t size) off = trie_get t size w off.
Proof.
  unfold unpack_from, trie_get, file_bytes. rewrite map_length, seq_length, N2Nat.id.
  destruct (N.leb_spec (off + N.of_nat w) size) as [H|H]; [|reflexivity].
  rewrite skipn_map, firstn_map, seq_part by lia. now rewrite bytes_from_ok.
Qed.

(** Signed numbers without computing powers. *)
Definition fsigned (w : nat) (n : N) : Z :=
  match w with
  | 4%nat => if n <? 2147483648 then Z.of_N n else (Z.of_N n - 4294967296)%Z
  | _ => to_signed w n
  end.
Lemma fsigned_ok w n : fsigned w n = to_signed w n.
Proof.
  do 4 (destruct w as [|w]; [exact (eq_refl (to_signed _ n))|]). destruct w as [|w].
  - unfold fsigned, to_signed. change (2 ^ (8 * N.of_nat 4 - 1)) with 2147483648.
    change (2 ^ (8 * Z.of_nat 4))%Z with 4294967296%Z. exact eq_refl.
  - exact (eq_refl (to_signed _ n)).
Qed.
Definition fnumber (t : ntype) (n : N) : Z := if nt_signed t then fsigned (nt_width t) n else Z.of_N n.
Lemma fnumber_ok t n : fnumber t n = to_number t n.
Proof. unfold fnumber, to_number. now rewrite fsigned_ok. Qed.

(** ** The reading functions over [get] *)
Section Fast.
Variable get : nat -> N -> res N.
Definition fget (w : nat) (off : Z) : res N := rbind (enforce_uoffset off) (get w).
Definition foffset (pos vtable_offset : N) : res N :=
  rbind (fget 4 (Z.of_N pos)) (fun s =>
  let vtable := (Z.of_N pos - fsigned 4 s)%Z in
  rbind (fget 2 vtable) (fun vtable_end =>
  if vtable_offset <? vtable_end then fget 2 (vtable + Z.of_N vtable_offset) else Ok 0)).
Definition findirect (off : N) : res N :=
  rbind (enforce_uoffset (Z.of_N off)) (fun off => rmap (N.add off) (get 4 off)).
Definition fvector (pos off : N) : res N :=
  rbind (enforce_uoffset (Z.of_N off)) (fun off =>
  let off := off + pos in
  rmap (fun x => off + x + 4) (fget 4 (Z.of_N off))).
Definition fvector_len (pos off : N) : res N :=
  rbind (enforce_uoffset (Z.of_N off)) (fun off =>
  let off := off + pos in
  rbind (get 4 off) (fun x => get 4 (off + x))).

(** A state is the position, the offset and the counter. *)
Record fst' := mkF { f_pos : N; f_off : N; f_counter : N }.
Definition fnew (offset : option N) : res fst' :=
  rbind (match offset with Some o => Ok o | None => get 4 0 end) (fun o =>
  rmap (fun p => mkF p o 4) (enforce_uoffset (Z.of_N o))).
Definition fpresent {A} (o : fst') (position : N) (read : N -> res A) (default : A) : res A :=
  rbind (foffset (f_pos o) position) (fun pos_offset =>
  if pos_offset =? 0 then Ok default else read pos_offset).
Definition fbump (o : fst') (n : N) : fst' := mkF (f_pos o) (f_off o) (f_counter o + 2 * n).
Definition finit {A} (read : fst' -> N -> res A) (o : fst') : res (A * fst') :=
  rmap (fun v => (v, fbump o 1)) (read o (f_counter o)).
Definition fint (t : ntype) (default : option Z) (o : fst') (position : N) : res (option Z) :=
  fpresent o position (fun pos_offset =>
    rmap (fun n => Some (fnumber t n)) (fget (nt_width t) (Z.of_N (pos_offset + f_off o)))) default.
Definition ffloat (w : nat) (default : option N) (o : fst') (position : N) : res (option N) :=
  fpresent o position (fun pos_offset => rmap Some (fget w (Z.of_N (pos_offset + f_off o)))) default.
Definition fenum {A} (t : ntype) (enum : Z -> res A) (default : option A) (o : fst') (position : N) : res (option A) :=
  fpresent o position (fun pos_offset =>
    rbind (fget (nt_width t) (Z.of_N (pos_offset + f_off o))) (fun n => rmap Some (enum (fnumber t n)))) default.
Definition fobject {A} (cls : N -> res A) (default : option A) (o : fst') (position : N) : res (option A) :=
  fpresent o position (fun pos_offset =>
    rbind (findirect (pos_offset + f_off o)) (fun val_offset => rmap Some (cls val_offset))) default.
Fixpoint fitems {A} (cls : N -> res A) (array_offset : N) (n : nat) : res (list A) :=
  match n with
  | O => Ok []
  | S n' =>
      rbind (findirect array_offset) (fun val_offset =>
      rbind (cls val_offset) (fun x => rmap (cons x) (fitems cls (array_offset + 4) n')))
  end.
Definition farray {A} (cls : N -> res A) (o : fst') (position : N) : res (list A) :=
  fpresent o position (fun pos_offset =>
    rbind (fvector (f_pos o) pos_offset) (fun array_offset =>
    rbind (fvector_len (f_pos o) pos_offset) (fun array_len =>
    fitems cls array_offset (N.to_nat array_len)))) [].
Fixpoint ffloats (n : nat) (o : fst') : res (list N * fst') :=
  match n with
  | O => Ok ([], o)
  | S n' =>
      rbind (finit (ffloat F32 (Some 0)) o) (fun '(x, o) =>
      rmap (fun '(l, o) => (match x with Some b => b | None => 0 end :: l, o)) (ffloats n' o))
  end.
Definition fmultiplier (offset : N) : res multiplier :=
  rbind (fnew (Some offset)) (fun o =>
  rbind (finit (fint I32 None) o) (fun '(species, o) =>
  rbind (finit (fint I32 (Some 0%Z)) o) (fun '(form, o) =>
  rbind (ffloats 4 o) (fun '(time, o) =>
  rmap (fun '(weather, o) => mkMultiplier species form time (one_f32 :: weather)) (ffloats 8 o))))).
Definition fmisc (offset : N) : res misc :=
  rbind (fnew (Some offset)) (fun o =>
  rbind (finit (fint I32 None) o) (fun '(species, o) =>
  rbind (finit (fint I32 (Some 0%Z)) o) (fun '(form, o) =>
  let o := fbump o 4 in
  rmap (fun '(index, o) => mkMisc species form index) (finit (fint I32 (Some 0%Z)) o)))).
Definition feligibility (offset : N) : res eligibility :=
  rbind (fnew (Some offset)) (fun o =>
  let o := fbump o 7 in
  rbind (ffloats 4 o) (fun '(time, o) =>
  rmap (fun '(weather, o) => mkEligibility time (one_f32 :: weather)) (ffloats 8 o))).
Definition foybn (offset : N) : res bool :=
  rbind (fnew (Some offset)) (fun o =>
  rbind (finit (fenum I8 to_bool None) o) (fun '(a, o) =>
  if truthy a then Ok true
  else rmap (fun '(b, o) => truthy b) (finit (fenum I8 to_bool None) o))).
Definition fslot (offset : N) : res slot8a :=
  rbind (fnew (Some offset)) (fun o =>
  rbind (finit (fint I32 None) o) (fun '(species, o) =>
  let o := fbump o 1 in
  rbind (finit (fint I32 (Some 0%Z)) o) (fun '(gender, o) =>
  rbind (finit (fint I32 None) o) (fun '(form, o) =>
  let o := fbump o 21 in
  rbind (finit (fint I32 None) o) (fun '(guaranteed_ivs, o) =>
  let o := fbump o 3 in
  rbind (finit (fint I32 None) o) (fun '(base_probability, o) =>
  rbind (finit (fint I32 (Some 0%Z)) o) (fun '(override_min, o) =>
  rbind (finit (fint I32 (Some 0%Z)) o) (fun '(override_max, o) =>
  let o := fbump o 13 in
  rbind (finit (fobject feligibility None) o) (fun '(elig, o) =>
  rbind (finit (fobject foybn None) o) (fun '(oybn, o) =>
  match oybn with
  | Some is_alpha =>
      Ok (mkSlot8a species gender form guaranteed_ivs base_probability override_min override_max elig is_alpha)
  | None => Raise AttributeError
  end)))))))))).
Definition fetable (offset : N) : res etable :=
  rbind (fnew (Some offset)) (fun o =>
  rbind (finit (fint U64 None) o) (fun '(id, o) =>
  rbind (finit (fint I32 None) o) (fun '(min_level, o) =>
  rbind (finit (fint I32 None) o) (fun '(max_level, o) =>
  rmap (fun '(slots, o) => mkEtable id min_level max_level slots) (finit (farray fslot) o))))).
(** The list at the root of a file. *)
Definition froot {A} (cls : N -> res A) : res (list A) :=
  rbind (fnew None) (fun o => rmap fst (finit (farray cls) o)).
End Fast.

(** ** Agreement with the model *)
Section Agree.
Variables (buf : list N) (get : nat -> N -> res N).
Hypothesis Hget : forall w off, unpack_from w buf off = get w off.
Definition emb (o : fst') : fbo := mkFbo (mkTable buf (f_pos o)) (f_off o) (f_counter o).
Definition emb2 {A} (x : A * fst') : A * fbo := (fst x, emb (snd x)).

Lemma rbind_ext {A B} (x : res A) (f g : A -> res B) : (forall a, f a = g a) -> rbind x f = rbind x g.
Proof. intros H. destruct x; cbn; [apply H|reflexivity]. Qed.
Lemma rmap_ext {A B} (x : res A) (f g : A -> B) : (forall a, f a = g a) -> rmap f x = rmap g x.
Proof. intros H. destruct x; cbn; [now rewrite H|reflexivity]. Qed.
Lemma rbind_rmap {A B C} (x : res A) (f : A -> B) (g : B -> res C) : rbind (rmap f x) g = rbind x (fun a => g (f a)).
Proof. now destruct x. Qed.
Lemma rmap_rmap {A B C} (x : res A) (f : A -> B) (g : B -> C) : rmap g (rmap f x) = rmap (fun a => g (f a)) x.
Proof. now destruct x. Qed.
Lemma rmap_rbind {A B C} (x : res A) (f : A -> res B) (g : B -> C) : rmap g (rbind x f) = rbind x (fun a => rmap g (f a)).
Proof. now destruct x. Qed.

Lemma get_ok w p off : table_get (mkTable buf p) w off = fget get w off.
Proof. unfold table_get, fget. apply rbind_ext. intros a. apply Hget. Qed.
Lemma offset_ok p v : table_offset (mkTable buf p) v = foffset get p v.
Proof.
  unfold table_offset, foffset. cbn [t_pos]. rewrite get_ok. apply rbind_ext. intros s. cbv zeta. rewrite fsigned_ok, get_ok.
  apply rbind_ext. intros e. now rewrite get_ok.
Qed.
Lemma indirect_ok p off : table_indirect (mkTable buf p) off = findirect get off.
Proof. unfold table_indirect, findirect. apply rbind_ext. intros a. cbn [t_bytes]. now rewrite Hget. Qed.
Lemma vector_ok p off : table_vector (mkTable buf p) off = fvector get p off.
Proof. unfold table_vector, fvector. apply rbind_ext. intros a. cbv zeta. cbn [t_pos]. now rewrite get_ok. Qed.
Lemma vector_len_ok p off : table_vector_len (mkTable buf p) off = fvector_len get p off.
Proof.
  unfold table_vector_len, fvector_len. apply rbind_ext. intros a. cbv zeta. cbn [t_bytes t_pos]. rewrite Hget.
  apply rbind_ext. intros x. apply Hget.
Qed.
Lemma new_ok offset : fbo_new buf offset = rmap emb (fnew get offset).
Proof.
  unfold fbo_new, fnew. destruct offset as [o|]; cbn [rbind].
  - now rewrite rmap_rmap.
  - rewrite Hget, rmap_rbind. apply rbind_ext. intros o. now rewrite rmap_rmap.
Qed.
Lemma present_ok {A} o position (r r' : N -> res A) d : (forall p, r p = r' p) ->
  read_present (emb o) position r d = fpresent get o position r' d.
Proof.
  intros H. unfold read_present, fpresent. cbn [emb fb_table]. rewrite offset_ok. apply rbind_ext. intros p.
  now destruct (p =? 0).
Qed.
Lemma init_ok {A} (r : fbo -> N -> res A) (r' : fst' -> N -> res A) o : (forall o p, r (emb o) p = r' o p) ->
  read_init r (emb o) = rmap emb2 (finit r' o).
Proof. intros H. unfold read_init, finit. rewrite rmap_rmap. cbn [emb fb_counter]. now rewrite <- H. Qed.
Lemma int_ok t d o p : read_int t d (emb o) p = fint get t d o p.
Proof. apply present_ok. intros q. cbn [emb fb_table fb_offset]. rewrite get_ok. apply rmap_ext. intros a. now rewrite fnumber_ok. Qed.
Lemma float_ok w d o p : read_float w d (emb o) p = ffloat get w d o p.
Proof. apply present_ok. intros q. cbn [emb fb_table fb_offset]. now rewrite get_ok. Qed.
Lemma enum_ok {A} t (e : Z -> res A) d o p : read_int_enum t e d (emb o) p = fenum get t e d o p.
Proof. apply present_ok. intros q. cbn [emb fb_table fb_offset]. rewrite get_ok. apply rbind_ext. intros a. now rewrite fnumber_ok. Qed.
Lemma object_ok {A} (cls : list N -> N -> res A) (cls' : N -> res A) d o p : (forall q, cls buf q = cls' q) ->
  read_object cls d (emb o) p = fobject get cls' d o p.
Proof.
  intros H. apply present_ok. intros q. cbn [emb fb_table fb_offset t_bytes]. rewrite indirect_ok.
  apply rbind_ext. intros v. now rewrite H.
Qed.
Lemma items_ok {A} (cls : list N -> N -> res A) (cls' : N -> res A) p : (forall q, cls buf q = cls' q) ->
  forall n a, read_items cls (mkTable buf p) a n = fitems get cls' a n.
Proof.
  intros H. induction n as [|n IH]; intros a; [reflexivity|]. cbn [read_items fitems t_bytes].
  rewrite indirect_ok. apply rbind_ext. intros v. rewrite H. apply rbind_ext. intros x. now rewrite IH.
Qed.
Lemma array_ok {A} (cls : list N -> N -> res A) (cls' : N -> res A) o p : (forall q, cls buf q = cls' q) ->
  read_object_array cls (emb o) p = farray get cls' o p.
Proof.
  intros H. apply present_ok. intros q. cbn [emb fb_table]. rewrite vector_ok. apply rbind_ext. intros a.
  rewrite vector_len_ok. apply rbind_ext. intros l. now apply items_ok.
Qed.
Lemma floats_ok : forall n o, read_floats n (emb o) = rmap emb2 (ffloats get n o).
Proof.
  induction n as [|n IH]; intros o; [reflexivity|]. cbn [read_floats ffloats].
  unfold read_init_float. rewrite (init_ok _ _ o (float_ok F32 (Some 0))), rbind_rmap, rmap_rbind.
  apply rbind_ext. intros [x o']. cbn [emb2 fst snd]. rewrite IH, !rmap_rmap. apply rmap_ext. now intros [l o''].
Qed.
Lemma init_int_ok t d o : read_init_int t d (emb o) = rmap emb2 (finit (fint get t d) o).
Proof. exact (init_ok _ _ o (int_ok t d)). Qed.
Lemma init_enum_ok {A} t (e : Z -> res A) d o : read_init_int_enum t e d (emb o) = rmap emb2 (finit (fenum get t e d) o).
Proof. exact (init_ok _ _ o (enum_ok t e d)). Qed.
Lemma init_object_ok {A} (cls : list N -> N -> res A) cls' d o : (forall q, cls buf q = cls' q) ->
  read_init_object cls d (emb o) = rmap emb2 (finit (fobject get cls' d) o).
Proof. intros H. exact (init_ok _ _ o (fun o p => object_ok cls cls' d o p H)). Qed.
Lemma init_array_ok {A} (cls : list N -> N -> res A) cls' o : (forall q, cls buf q = cls' q) ->
  read_init_object_array cls (emb o) = rmap emb2 (finit (farray get cls') o).
Proof. intros H. exact (init_ok _ _ o (fun o p => array_ok cls cls' o p H)). Qed.
Lemma padding_ok n o : read_init_padding n (emb o) = emb (fbump o n).
Proof. reflexivity. Qed.

Ltac start := match goal with |- rbind _ _ = _ => idtac end; rewrite new_ok, rbind_rmap; apply rbind_ext; intros o.
Ltac one := rewrite rbind_rmap; apply rbind_ext; let x := fresh "x" in let o := fresh "o" in intros [x o]; cbn [emb2 fst snd].
Ltac last := rewrite rmap_rmap; apply rmap_ext; now intros [? ?].

Lemma multiplier_ok q : multiplier_new buf q = fmultiplier get q.
Proof.
  unfold multiplier_new, fmultiplier. start. rewrite init_int_ok. one. rewrite init_int_ok. one.
  rewrite floats_ok. one. rewrite floats_ok. last.
Qed.
Lemma misc_ok q : misc_new buf q = fmisc get q.
Proof.
  unfold misc_new, fmisc. start. rewrite init_int_ok. one. rewrite init_int_ok. one. cbv zeta.
  rewrite padding_ok, init_int_ok. last.
Qed.
Lemma eligibility_ok q : eligibility_new buf q = feligibility get q.
Proof.
  unfold eligibility_new, feligibility. start. cbv zeta. rewrite padding_ok, floats_ok. one. rewrite floats_ok. last.
Qed.
Lemma oybn_ok q : oybn_new buf q = foybn get q.
Proof.
  unfold oybn_new, foybn. start. rewrite init_enum_ok. one. destruct (truthy x); [reflexivity|]. rewrite init_enum_ok. last.
Qed.
Lemma slot_ok q : slot8a_new buf q = fslot get q.
Proof.
  unfold slot8a_new, fslot. start. rewrite init_int_ok. one. cbv zeta. rewrite padding_ok, init_int_ok. one.
  rewrite init_int_ok. one. rewrite padding_ok, init_int_ok. one. rewrite padding_ok, init_int_ok. one.
  rewrite init_int_ok. one. rewrite init_int_ok. one.
  rewrite padding_ok, (init_object_ok _ _ _ _ eligibility_ok). one.
  rewrite (init_object_ok _ _ _ _ oybn_ok). one. reflexivity.
Qed.
Lemma etable_ok q : etable_new buf q = fetable get q.
Proof.
  unfold etable_new, fetable. start. rewrite init_int_ok. one. rewrite init_int_ok. one. rewrite init_int_ok. one.
  rewrite (init_array_ok _ _ _ slot_ok). last.
Qed.
Lemma root_ok {A B} (cls : list N -> N -> res A) cls' (k : list A -> B) : (forall q, cls buf q = cls' q) ->
  rbind (fbo_new buf None) (fun o => rmap (fun '(l, _) => k l) (read_init_object_array cls o)) = rmap k (froot get cls').
Proof.
  intros H. unfold froot. rewrite new_ok, rbind_rmap, rmap_rbind. apply rbind_ext. intros o.
  rewrite (init_array_ok cls cls' o H), !rmap_rmap. apply rmap_ext. now intros [l o'].
Qed.
Lemma multiplier_table_ok : multiplier_table buf =
  rmap (fun l => (l, dict_by sf_eqb (fun m => (mu_species m, or_zero (mu_form m))) l)) (froot get (fmultiplier get)).
Proof. exact (root_ok _ _ (fun l => (l, dict_by sf_eqb (fun m => (mu_species m, or_zero (mu_form m))) l)) multiplier_ok). Qed.
Lemma misc_table_ok : misc_table buf =
  rmap (fun l => (l, dict_by sf_eqb (fun m => (mi_species m, or_zero (mi_form m))) l)) (froot get (fmisc get)).
Proof. exact (root_ok _ _ (fun l => (l, dict_by sf_eqb (fun m => (mi_species m, or_zero (mi_form m))) l)) misc_ok). Qed.
Lemma etable_table_ok : etable_table buf = rmap (fun l => (l, dict_by opt_eqb et_id l)) (froot get (fetable get)).
Proof. exact (root_ok _ _ (fun l => (l, dict_by opt_eqb et_id l)) etable_ok). Qed.
End Agree.
