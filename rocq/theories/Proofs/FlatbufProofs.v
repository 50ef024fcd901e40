(** Reading FlatBuffers: every reader returns what the buffer holds. *)
From Coq Require Import NArith ZArith List Bool Lia.
From Verif Require Import Base.Word Model.Flatbuf Spec.FlatbufSpec.
Import ListNotations.
Open Scope N_scope.

Lemma le_bytes_length w : forall n, length (le_bytes w n) = w.
Proof. induction w as [|w IH]; intros n; cbn; [reflexivity|]. now rewrite IH. Qed.

Lemma le_value_bytes w : forall n, n < 2 ^ (8 * N.of_nat w) -> le_value (le_bytes w n) = n.
Proof.
  induction w as [|w IH]; intros n H.
  - cbn in *. lia.
  - cbn [le_bytes le_value fold_right]. fold (le_value (le_bytes w (n / 256))).
    rewrite IH.
    + pose proof (N.div_mod n 256). lia.
    + apply N.div_lt_upper_bound; [lia|].
      replace (8 * N.of_nat (S w)) with (8 + 8 * N.of_nat w) in H by lia.
      rewrite N.pow_add_r in H. exact H.
Qed.

Lemma slice_app {A} (a l b : list A) : firstn (length l) (skipn (length a) (a ++ l ++ b)) = l.
Proof.
  rewrite skipn_app, skipn_all, Nat.sub_diag. cbn [skipn app].
  rewrite firstn_app, Nat.sub_diag, firstn_all. cbn. apply app_nil_r.
Qed.

Lemma unpack_number buf a w n : number_at buf a w n -> unpack_from w buf a = Ok n.
Proof.
  intros (Hn & before & after & -> & <-). unfold unpack_from.
  rewrite !app_length, le_bytes_length.
  destruct (N.leb_spec (N.of_nat (length before) + N.of_nat w) (N.of_nat (length before + (w + length after)))) as [_|]; [|lia].
  rewrite Nat2N.id. rewrite <- (le_bytes_length w n) at 1. rewrite slice_app. f_equal. now apply le_value_bytes.
Qed.

Lemma enforce_ok a : a < 2^32 -> enforce_uoffset (Z.of_N a) = Ok a.
Proof.
  intros H. change (2^32) with 4294967296 in H. unfold enforce_uoffset.
  destruct (Z.leb_spec 0 (Z.of_N a)); [|lia]. destruct (Z.leb_spec (Z.of_N a) 4294967295); [|lia].
  cbn. now rewrite N2Z.id.
Qed.
Lemma get_number buf pos a w n : a < 2^32 -> number_at buf a w n -> table_get (mkTable buf pos) w (Z.of_N a) = Ok n.
Proof. intros Ha H. unfold table_get. rewrite enforce_ok by exact Ha. now apply unpack_number. Qed.

Lemma signed_ok z : (- 2^31 <= z < 2^31)%Z -> to_signed 4 (Z.to_N (z mod 2^32)) = z.
Proof.
  intros H. unfold to_signed. change (2 ^ (8 * N.of_nat 4 - 1)) with 2147483648.
  change (2 ^ (8 * Z.of_nat 4))%Z with 4294967296%Z. change (2^32)%Z with 4294967296%Z.
  change (2^31)%Z with 2147483648%Z in H.
  assert (B : (0 <= z mod 4294967296 < 4294967296)%Z) by (apply Z.mod_pos_bound; lia).
  destruct (Z.le_gt_cases 0 z) as [Hz|Hz].
  - rewrite Z.mod_small by lia. destruct (N.ltb_spec (Z.to_N z) 2147483648); lia.
  - assert (E : (z mod 4294967296 = z + 4294967296)%Z).
    { symmetry. apply Z.mod_unique with (q := (-1)%Z); [left; lia|lia]. }
    rewrite E. destruct (N.ltb_spec (Z.to_N (z + 4294967296)) 2147483648); lia.
Qed.

(** The vtable entry of field [k]. *)
Lemma offset_of buf pos o k : object_at buf pos o ->
  exists d, table_offset (mkTable buf pos) (4 + 2 * N.of_nat k) = Ok d /\
    match field_of o k with
    | Some f => d <> 0 /\ d < 2^16 /\ field_at buf (pos + d) f
    | None => d = 0
    end.
Proof.
  intros H. inversion H as [pos' fields vtable size Hp [Hz Hs] Hsize Hv He Ep Eo]. subst.
  unfold table_offset. cbn [t_pos]. rewrite (get_number _ _ _ _ _ Hp Hs). cbn [rbind].
  rewrite signed_ok by exact Hz.
  replace (Z.of_N pos - (Z.of_N pos - Z.of_N vtable))%Z with (Z.of_N vtable) by lia.
  change (2^32 - 2^16) with 4294901760 in Hv.
  assert (Hv' : vtable < 2^32) by (change (2^32) with 4294967296; lia).
  rewrite (get_number _ _ _ _ _ Hv' Hsize). cbn [rbind].
  assert (Hb : size < 65536) by (destruct Hsize as [Hb _]; exact Hb).
  specialize (He k). unfold field_of.
  inversion He as [p v s k' f Hk Hf E1 E2 E3 E4 E5 | p v s k' f Hk Hn Hf E1 E2 E3 E4 E5
                   | p v s k' f d Hk Hd Hn Hf E1 E2 E3 E4 E5]; subst.
  - destruct (N.ltb_spec (4 + 2 * N.of_nat k) size); [lia|]. exists 0. split; [reflexivity|].
    destruct Hf as [->| ->]; reflexivity.
  - destruct (N.ltb_spec (4 + 2 * N.of_nat k) size); [|lia].
    replace (Z.of_N vtable + Z.of_N (4 + 2 * N.of_nat k))%Z with (Z.of_N (vtable + 4 + 2 * N.of_nat k)) by lia.
    rewrite (get_number _ _ _ _ 0); [|change (2^32) with 4294967296; lia|exact Hn].
    exists 0. split; [reflexivity|]. destruct Hf as [->| ->]; reflexivity.
  - destruct (N.ltb_spec (4 + 2 * N.of_nat k) size); [|lia].
    replace (Z.of_N vtable + Z.of_N (4 + 2 * N.of_nat k))%Z with (Z.of_N (vtable + 4 + 2 * N.of_nat k)) by lia.
    rewrite (get_number _ _ _ _ d); [|change (2^32) with 4294967296; lia|exact Hn].
    exists d. split; [reflexivity|]. split; [exact Hd|]. split; [exact (proj1 Hn)|exact Hf].
Qed.


Lemma object_bound buf pos o : object_at buf pos o -> pos < 2^32.
Proof. now intros []. Qed.

Lemma new_at buf pos o : object_at buf pos o ->
  exists st, fbo_new buf (Some pos) = Ok st /\ at_field buf pos o 0 st.
Proof.
  intros H. unfold fbo_new. cbn [rbind]. rewrite enforce_ok by now apply object_bound in H.
  cbn [rmap]. eexists. split; [reflexivity|]. split; [exact H|reflexivity].
Qed.
Lemma new_root buf o : root_at buf o ->
  exists pos st, fbo_new buf None = Ok st /\ at_field buf pos o 0 st.
Proof.
  intros (pos & Hn & H). exists pos. unfold fbo_new. rewrite (unpack_number _ _ _ _ Hn). cbn [rbind].
  rewrite enforce_ok by now apply object_bound in H.
  cbn [rmap]. eexists. split; [reflexivity|]. split; [exact H|reflexivity].
Qed.
Lemma padding_at buf pos o k st n : at_field buf pos o k st ->
  at_field buf pos o (k + N.to_nat n) (read_init_padding n st).
Proof.
  intros [H ->]. split; [exact H|]. unfold read_init_padding, bump. cbn [fb_table fb_offset fb_counter]. f_equal. lia.
Qed.

(** A read at the counter. *)
Lemma init_at {A} buf pos o k st (read : fbo -> N -> res A) v : at_field buf pos o k st ->
  read (mkFbo (mkTable buf pos) pos (4 + 2 * N.of_nat k)) (4 + 2 * N.of_nat k) = Ok v ->
  exists st', read_init read st = Ok (v, st') /\ at_field buf pos o (S k) st'.
Proof.
  intros [H ->] E. unfold read_init. cbn [fb_counter]. rewrite E. cbn [rmap].
  eexists. split; [reflexivity|]. split; [exact H|]. unfold bump. cbn [fb_table fb_offset fb_counter]. f_equal. lia.
Qed.

Lemma present_at {A} buf pos o k c (read : N -> res A) d v : object_at buf pos o ->
  match field_of o k with
  | Some f => forall dist, dist < 2^16 -> field_at buf (pos + dist) f -> read dist = Ok v
  | None => v = d
  end ->
  read_present (mkFbo (mkTable buf pos) pos c) (4 + 2 * N.of_nat k) read d = Ok v.
Proof.
  intros H Hr. unfold read_present. cbn [fb_table]. destruct (offset_of buf pos o k H) as (dist & -> & Hd). cbn [rbind].
  destruct (field_of o k) as [f|].
  - destruct Hd as (H0 & H1 & Hf). destruct (N.eqb_spec dist 0); [contradiction|]. now apply Hr.
  - subst. reflexivity.
Qed.

Lemma to_number_value t n : (0 < nt_width t)%nat -> n < 2 ^ (8 * N.of_nat (nt_width t)) ->
  to_number t n = value_of t n.
Proof.
  intros Hw H. unfold to_number, value_of, to_signed. destruct (nt_signed t); [|reflexivity].
  set (w := nt_width t) in *.
  assert (E : (2 ^ (8 * Z.of_nat w) = Z.of_N (2 ^ (8 * N.of_nat w)))%Z).
  { rewrite N2Z.inj_pow, N2Z.inj_mul, nat_N_Z. reflexivity. }
  assert (E1 : (2 ^ (8 * Z.of_nat w - 1) = Z.of_N (2 ^ (8 * N.of_nat w - 1)))%Z).
  { rewrite N2Z.inj_pow, N2Z.inj_sub, N2Z.inj_mul, nat_N_Z by lia. reflexivity. }
  assert (E2 : 2 ^ (8 * N.of_nat w) = 2 * 2 ^ (8 * N.of_nat w - 1)).
  { rewrite <- N.pow_succ_r'. f_equal. lia. }
  rewrite E, E1, E2. rewrite E2 in H. set (h := 2 ^ (8 * N.of_nat w - 1)) in *.
  destruct (N.ltb_spec n h) as [L|L].
  - rewrite Z.mod_small by lia. lia.
  - assert (M : ((Z.of_N n + Z.of_N h) mod Z.of_N (2 * h) = Z.of_N n - Z.of_N h)%Z).
    { symmetry. apply Z.mod_unique with (q := 1%Z); lia. }
    rewrite M. lia.
Qed.

Lemma get_scalar buf pos dist w n : field_at buf (pos + dist) (FScalar w n) ->
  table_get (mkTable buf pos) w (Z.of_N (dist + pos)) = Ok n.
Proof.
  intros H. inversion H; subst. rewrite (N.add_comm dist). now apply get_number.
Qed.

Lemma int_at buf pos o k st t d : (0 < nt_width t)%nat -> at_field buf pos o k st -> scalar_field o k (nt_width t) ->
  exists st', read_init_int t d st = Ok (int_value t d o k, st') /\ at_field buf pos o (S k) st'.
Proof.
  intros Hw Hat Hs. apply init_at; [exact Hat|]. destruct Hat as [H ->].
  apply present_at with (o := o); [exact H|]. unfold scalar_field in Hs. unfold int_value.
  destruct (field_of o k) as [[w n| | |]|]; try contradiction; [|reflexivity].
  subst w. intros dist _ Hf. cbn [fb_table fb_offset]. rewrite (get_scalar _ _ _ _ _ Hf). cbn [rmap].
  rewrite to_number_value; [reflexivity|exact Hw|]. inversion Hf as [a w n' Ha [Hn _] | | | ]; subst. exact Hn.
Qed.
Lemma float_at buf pos o k st w d : at_field buf pos o k st -> scalar_field o k w ->
  exists st', read_init_float w d st = Ok (float_value d o k, st') /\ at_field buf pos o (S k) st'.
Proof.
  intros Hat Hs. apply init_at; [exact Hat|]. destruct Hat as [H ->].
  apply present_at with (o := o); [exact H|]. unfold scalar_field in Hs. unfold float_value.
  destruct (field_of o k) as [[w' n| | |]|]; try contradiction; [|reflexivity].
  subst w'. intros dist _ Hf. cbn [fb_table fb_offset]. rewrite (get_scalar _ _ _ _ _ Hf). reflexivity.
Qed.
Lemma to_number_zero t n : n < 2 ^ (8 * N.of_nat (nt_width t)) -> (to_number t n =? 0)%Z = (n =? 0).
Proof.
  intros H. unfold to_number, to_signed.
  assert (E : (2 ^ (8 * Z.of_nat (nt_width t)) = Z.of_N (2 ^ (8 * N.of_nat (nt_width t))))%Z).
  { rewrite N2Z.inj_pow, N2Z.inj_mul, nat_N_Z. reflexivity. }
  assert (P : 2 ^ (8 * N.of_nat (nt_width t) - 1) <> 0) by now apply N.pow_nonzero.
  destruct (nt_signed t); [destruct (N.ltb_spec n (2 ^ (8 * N.of_nat (nt_width t) - 1)))|];
    destruct (N.eqb_spec n 0) as [->|Hn]; try reflexivity; try (apply Z.eqb_neq; lia); lia.
Qed.
Lemma bool_at buf pos o k st t : at_field buf pos o k st -> scalar_field o k (nt_width t) ->
  exists st', read_init_int_enum t to_bool None st = Ok (bool_value o k, st') /\ at_field buf pos o (S k) st'.
Proof.
  intros Hat Hs. apply init_at; [exact Hat|]. destruct Hat as [H ->].
  apply present_at with (o := o); [exact H|]. unfold scalar_field in Hs. unfold bool_value.
  destruct (field_of o k) as [[w n| | |]|]; try contradiction; [|reflexivity].
  subst w. intros dist _ Hf. cbn [fb_table fb_offset]. rewrite (get_scalar _ _ _ _ _ Hf). cbn [rbind].
  unfold to_bool. cbn [rmap]. rewrite to_number_zero; [reflexivity|].
  inversion Hf as [a w n' Ha [Hn _] | | | ]; subst. exact Hn.
Qed.
Lemma enum_at {A} buf pos o k st t (enum : Z -> res A) d v : (0 < nt_width t)%nat ->
  at_field buf pos o k st -> scalar_field o k (nt_width t) ->
  match field_of o k with
  | Some (FScalar _ n) => exists x, enum (value_of t n) = Ok x /\ v = Some x
  | _ => v = d
  end ->
  exists st', read_init_int_enum t enum d st = Ok (v, st') /\ at_field buf pos o (S k) st'.
Proof.
  intros Hw Hat Hs Hv. apply init_at; [exact Hat|]. destruct Hat as [H ->].
  apply present_at with (o := o); [exact H|]. unfold scalar_field in Hs.
  destruct (field_of o k) as [[w n| | |]|]; try contradiction; [|exact Hv].
  subst w. destruct Hv as (x & E & ->). intros dist _ Hf. cbn [fb_table fb_offset].
  rewrite (get_scalar _ _ _ _ _ Hf). cbn [rbind].
  rewrite to_number_value; [now rewrite E|exact Hw|]. inversion Hf as [a w n' Ha [Hn _] | | | ]; subst. exact Hn.
Qed.

(** A reference: the class is read at the object. *)
Lemma object_field {A} buf pos o k st (cls : list N -> N -> res A) d v : at_field buf pos o k st ->
  match field_of o k with
  | Some (FRef o') => exists x, v = Some x /\ forall p, object_at buf p o' -> cls buf p = Ok x
  | None => v = d
  | Some _ => False
  end ->
  exists st', read_init_object cls d st = Ok (v, st') /\ at_field buf pos o (S k) st'.
Proof.
  intros Hat Hs. apply init_at; [exact Hat|]. destruct Hat as [H ->].
  apply present_at with (o := o); [exact H|].
  destruct (field_of o k) as [[|o'| |]|]; try contradiction; [|exact Hs].
  destruct Hs as (x & -> & Hx). intros dist _ Hf. cbn [fb_table fb_offset].
  inversion Hf as [|a o'' u Ha Hn Ho| |]; subst. unfold table_indirect.
  rewrite (N.add_comm dist). rewrite enforce_ok by exact Ha. cbn [rbind t_bytes].
  rewrite (unpack_number _ _ _ _ Hn). cbn [rmap rbind]. now rewrite (Hx _ Ho).
Qed.

(** A vector of references. *)
Lemma items_ok {A} buf pos (cls : list N -> N -> res A) : forall os a vs,
  Forall2 (fun o x => forall p, object_at buf p o -> cls buf p = Ok x) os vs ->
  items_at buf a os -> read_items cls (mkTable buf pos) a (length os) = Ok vs.
Proof.
  induction os as [|o os IH]; intros a vs HF Hi; inversion HF; subst; cbn [length read_items]; [reflexivity|].
  inversion Hi as [|a' o' l u Ha Hn Ho Hl]; subst. unfold table_indirect.
  rewrite enforce_ok by exact Ha. cbn [rbind t_bytes]. rewrite (unpack_number _ _ _ _ Hn). cbn [rmap rbind].
  rewrite (H1 _ Ho). cbn [rbind]. now rewrite (IH (a + 4) l' H3 Hl).
Qed.
Lemma vector_len buf pos dist u n : dist < 2^16 -> pos + dist < 2^32 -> number_at buf (pos + dist) 4 u ->
  number_at buf (pos + dist + u) 4 n ->
  table_vector (mkTable buf pos) dist = Ok (pos + dist + u + 4) /\
  table_vector_len (mkTable buf pos) dist = Ok n.
Proof.
  intros Hd Ha Hu Hn. unfold table_vector, table_vector_len. change (2^16) with 65536 in Hd.
  rewrite enforce_ok by (change (2^32) with 4294967296; lia). cbn [rbind t_pos t_bytes].
  rewrite (N.add_comm dist). rewrite (get_number _ _ _ _ _ Ha Hu), (unpack_number _ _ _ _ Hu). cbn [rmap rbind].
  split; [reflexivity|]. now apply unpack_number.
Qed.
Lemma array_field {A} buf pos o k st (cls : list N -> N -> res A) v : at_field buf pos o k st ->
  match field_of o k with
  | Some (FVec os) => Forall2 (fun o x => forall p, object_at buf p o -> cls buf p = Ok x) os v
  | None => v = []
  | Some _ => False
  end ->
  exists st', read_init_object_array cls st = Ok (v, st') /\ at_field buf pos o (S k) st'.
Proof.
  intros Hat Hs. apply init_at; [exact Hat|]. destruct Hat as [H ->].
  apply present_at with (o := o); [exact H|].
  destruct (field_of o k) as [[| |os|]|]; try contradiction; [|exact Hs].
  intros dist Hd Hf. cbn [fb_table]. inversion Hf as [| |a l u Ha Hn Hlen Hi|]; subst.
  destruct (vector_len buf pos dist u _ Hd Ha Hn Hlen) as [-> ->]. cbn [rbind].
  rewrite Nat2N.id. now apply items_ok.
Qed.
Lemma string_field buf pos o k st : at_field buf pos o k st ->
  match field_of o k with
  | Some (FStr l) => exists st', read_init_string st = Ok (l, st') /\ at_field buf pos o (S k) st'
  | None => read_init_string st = Raise AttributeError
  | Some _ => True
  end.
Proof.
  intros Hat. destruct (field_of o k) as [[| | |l]|] eqn:E; try exact I.
  - apply init_at; [exact Hat|]. destruct Hat as [H ->]. unfold read_string.
    rewrite (present_at buf pos o k _ _ None (Some l) H); [reflexivity|]. rewrite E.
    intros dist Hd Hf. cbn [fb_table]. inversion Hf as [| | |a l' u Ha Hn Hlen (before & after & Eb & Lb)]; subst.
    destruct (vector_len _ pos dist u _ Hd Ha Hn Hlen) as [-> ->]. cbn [rbind rmap t_bytes]. rewrite Nat2N.id.
    rewrite <- Lb, Nat2N.id. now rewrite slice_app.
  - destruct Hat as [H ->]. unfold read_init_string, read_init, read_string. cbn [fb_counter].
    rewrite (present_at buf pos o k _ _ None None H); [reflexivity|]. now rewrite E.
Qed.
