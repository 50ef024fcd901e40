(** Proofs about packed records and the choice of tables. *)
From Coq Require Import NArith Arith String List Lia Bool.
From Verif Require Import Base.Word Model.Personal Model.PersonalLayouts Spec.PersonalSpec.
Import ListNotations.
Open Scope list_scope.
Open Scope N_scope.

Lemma size_of_record_size l : record_size l = size_of l.
Proof. induction l as [|[n d] l IH]; [reflexivity|]. cbn. f_equal. exact IH. Qed.

Lemma encode_length d v : fits d v -> length (encode d v) = width d.
Proof. destruct d, v; cbn; try easy. Qed.

Lemma encode_record_length l : forall vs, fits_record l vs ->
  length (encode_record l vs) = size_of l.
Proof.
  induction l as [|[n d] l IH]; intros vs H; inversion H; subst; [reflexivity|].
  cbn. rewrite app_length, encode_length by assumption. f_equal. now apply IH.
Qed.

Lemma read_encode d v rest : fits d v -> read d (encode d v ++ rest) = v.
Proof.
  destruct d, v; cbn [read encode fits nth app]; try easy; intros H.
  - f_equal. pose proof (N.div_mod n 256 ltac:(lia)). lia.
  - destruct H as [H _]. f_equal. rewrite <- H, firstn_app, firstn_all, Nat.sub_diag. cbn.
    apply app_nil_r.
Qed.

(** ** Looking a field up *)
Lemma start_S n d l i : start ((n, d) :: l) (S i) = (width d + start l i)%nat.
Proof. reflexivity. Qed.

Lemma lookup_nth l : forall i name d o, NoDup (map fst l) -> nth_error l i = Some (name, d) ->
  lookup l name o = Some ((o + start l i)%nat, d).
Proof.
  induction l as [|[n e] l IH]; intros i name d o ND H; [destruct i; discriminate|].
  cbn [map fst] in ND. inversion ND as [|? ? Hn ND']; subst.
  destruct i as [|i]; cbn [nth_error] in H.
  - injection H as -> ->. cbn [lookup]. rewrite String.eqb_refl. unfold start. cbn. now rewrite Nat.add_0_r.
  - cbn [lookup]. destruct (String.eqb_spec n name) as [->|Hne].
    + exfalso. apply Hn. apply nth_error_In in H. now apply (in_map fst) in H.
    + rewrite (IH i name d _ ND' H), start_S. f_equal. f_equal. change (itemsize e) with (width e). lia.
Qed.

Lemma lookup_absent l name : forall o, ~ In name (map fst l) -> lookup l name o = None.
Proof.
  induction l as [|[n e] l IH]; intros o H; [reflexivity|]. cbn in *.
  destruct (String.eqb_spec n name) as [->|Hne]; [now exfalso; apply H; left|].
  apply IH. tauto.
Qed.

Lemma skipn_add {A} (l : list A) : forall a b, skipn (a + b) l = skipn b (skipn a l).
Proof.
  induction l as [|x l IH]; intros a b; [now rewrite !skipn_nil|].
  destruct a; [reflexivity|]. cbn. apply IH.
Qed.

Lemma field_decodes l : forall vs i name d v tail,
  fits_record l vs -> nth_error l i = Some (name, d) -> nth_error vs i = Some v ->
  read d (skipn (start l i) (encode_record l vs ++ tail)) = v.
Proof.
  induction l as [|[n e] l IH]; intros vs i name d v tail Hf Hl Hv; [destruct i; discriminate|].
  inversion Hf as [|? w ? vs' Hw Hf']; subst. cbn [snd] in Hw.
  destruct i as [|i].
  - cbn in Hl, Hv. injection Hl as -> ->. injection Hv as ->. unfold start. cbn [firstn size_of skipn encode_record].
    rewrite <- app_assoc. now apply read_encode.
  - rewrite start_S, skipn_add. cbn [encode_record]. rewrite <- app_assoc.
    rewrite skipn_app, (encode_length _ _ Hw), Nat.sub_diag, (@skipn_all2 _ (width e) (encode e w)) by (rewrite (encode_length _ _ Hw); lia).
    cbn [skipn app]. cbn in Hl, Hv. now apply (IH vs' i name).
Qed.

Lemma start_bound l : forall i name d, nth_error l i = Some (name, d) ->
  (start l i + width d <= size_of l)%nat.
Proof.
  induction l as [|[n e] l IH]; intros i name d H; [destruct i; discriminate|].
  destruct i as [|i]; cbn in H.
  - injection H as -> ->. unfold start. cbn. lia.
  - rewrite start_S. specialize (IH i name d H).
    change (size_of ((n, e) :: l)) with (width e + size_of l)%nat. lia.
Qed.

Lemma start_next l : forall i name d, nth_error l i = Some (name, d) ->
  start l (S i) = (start l i + width d)%nat.
Proof.
  induction l as [|[n e] l IH]; intros i name d H; [destruct i; discriminate|].
  destruct i as [|i]; cbn in H.
  - injection H as -> ->. unfold start. cbn. lia.
  - rewrite start_S, (IH i name d H). rewrite start_S. lia.
Qed.

Lemma start_mono l : forall i j, (i <= j)%nat -> (start l i <= start l j)%nat.
Proof.
  induction l as [|[n e] l IH]; intros i j H.
  - unfold start. now rewrite !firstn_nil.
  - destruct i as [|i]; [unfold start; cbn; lia|]. destruct j as [|j]; [lia|].
    rewrite !start_S. specialize (IH i j ltac:(lia)). lia.
Qed.

Lemma start_all l : start l (length l) = size_of l.
Proof. unfold start. now rewrite firstn_all. Qed.

(** Every byte is in one field. *)
Lemma byte_field l : forall k, (k < size_of l)%nat ->
  exists i name d, nth_error l i = Some (name, d) /\ (start l i <= k < start l i + width d)%nat.
Proof.
  induction l as [|[n e] l IH]; intros k H; [cbn in H; lia|].
  destruct (Nat.lt_ge_cases k (width e)) as [Hk|Hk].
  - exists 0%nat, n, e. unfold start. cbn. split; [reflexivity|lia].
  - change (size_of ((n, e) :: l)) with (width e + size_of l)%nat in H.
    destruct (IH (k - width e)%nat ltac:(lia)) as (i & name & d & Hi & Hr).
    exists (S i), name, d. rewrite start_S. split; [exact Hi|lia].
Qed.

Lemma byte_field_unique l k i j n d n' d' :
  nth_error l i = Some (n, d) -> nth_error l j = Some (n', d') ->
  (start l i <= k < start l i + width d)%nat ->
  (start l j <= k < start l j + width d')%nat -> i = j.
Proof.
  intros Hi Hj Hk Hk'.
  destruct (lt_eq_lt_dec i j) as [[H|H]|H]; [|exact H|].
  - pose proof (start_mono l (S i) j H). rewrite (start_next l i n d Hi) in H0. lia.
  - pose proof (start_mono l (S j) i H). rewrite (start_next l j n' d' Hj) in H0. lia.
Qed.

(** A field is read from its own bytes. *)
Lemma nth_error_skipn {A} (l : list A) : forall o k, nth_error (skipn o l) k = nth_error l (o + k).
Proof.
  induction l as [|x l IH]; intros o k.
  - rewrite skipn_nil. destruct k, (o + 0)%nat; cbn; try reflexivity; destruct o; reflexivity.
  - destruct o; [reflexivity|]. cbn. apply IH.
Qed.

Lemma nth_of_error {A} (l m : list A) k x : nth_error l k = nth_error m k -> nth k l x = nth k m x.
Proof.
  intros H. destruct (nth_error l k) as [a|] eqn:E.
  - now rewrite (nth_error_nth _ _ _ E), (nth_error_nth _ _ x (eq_sym H)).
  - rewrite (nth_overflow l x), (nth_overflow m x); [reflexivity| |]; now apply nth_error_None.
Qed.

Lemma firstn_same {A} n : forall (l m : list A), (forall k, (k < n)%nat -> nth_error l k = nth_error m k) ->
  firstn n l = firstn n m.
Proof.
  induction n as [|n IH]; intros l m H; [reflexivity|].
  pose proof (H 0%nat ltac:(lia)) as H0. destruct l, m; try discriminate; [reflexivity|].
  cbn in H0. injection H0 as ->. cbn. f_equal. apply IH. intros k Hk. apply (H (S k)). lia.
Qed.

Lemma read_same d r s : (forall k, (k < width d)%nat -> nth_error r k = nth_error s k) -> read d r = read d s.
Proof.
  destruct d; cbn [width read]; intros H; f_equal.
  - apply nth_of_error, H; lia.
  - now rewrite (nth_of_error r s 0 0), (nth_of_error r s 1 0) by (apply H; lia).
  - now apply firstn_same.
Qed.

Lemma field_local l i name d r s : NoDup (map fst l) -> nth_error l i = Some (name, d) ->
  same_bytes r s (start l i) (start l i + width d) -> get_field l r name = get_field l s name.
Proof.
  intros ND H Hs. unfold get_field. rewrite (lookup_nth l i name d 0 ND H). cbn [Nat.add]. f_equal.
  apply read_same. intros k Hk. rewrite !nth_error_skipn. apply Hs. lia.
Qed.

Lemma get_field_encoded l vs i name d v tail : NoDup (map fst l) -> fits_record l vs ->
  nth_error l i = Some (name, d) -> nth_error vs i = Some v ->
  get_field l (encode_record l vs ++ tail) name = Ok v.
Proof.
  intros ND Hf Hl Hv. unfold get_field. rewrite (lookup_nth l i name d 0 ND Hl). cbn [Nat.add].
  f_equal. now apply (field_decodes l vs i name).
Qed.

(** ** Files *)
Lemma records_nth size : (0 < size)%nat -> forall fuel b n, (length b <= fuel)%nat ->
  nth_error (records fuel size b) n
  = if (S n * size <=? length b)%nat then Some (firstn size (skipn (n * size) b)) else None.
Proof.
  intros Hs fuel. induction fuel as [|f IH]; intros b n Hf.
  - destruct b; [|cbn in Hf; lia]. cbn [records length].
    destruct (Nat.leb_spec (S n * size) 0); [cbn in *; lia|]. now destruct n.
  - cbn [records]. destruct (Nat.leb_spec size (length b)) as [H|H].
    + destruct n as [|n].
      * cbn [nth_error Nat.mul skipn]. rewrite Nat.add_0_r.
        now destruct (Nat.leb_spec size (length b)); [|lia].
      * cbn [nth_error]. rewrite IH by (rewrite skipn_length; lia). rewrite skipn_length.
        replace (S n * size)%nat with (size + n * size)%nat by reflexivity.
        replace (S (S n) * size)%nat with (size + (size + n * size))%nat by reflexivity.
        rewrite skipn_add.
        destruct (Nat.leb_spec (size + n * size) (length b - size)),
          (Nat.leb_spec (size + (size + n * size)) (length b)); try reflexivity; lia.
    + destruct (Nat.leb_spec (S n * size) (length b)); [cbn in *; lia|]. now destruct n.
Qed.

Lemma load_nth l b n : (0 < size_of l)%nat ->
  nth_error (load_personal l b) n
  = if (S n * size_of l <=? length b)%nat
    then Some (firstn (size_of l) (skipn (n * size_of l) b)) else None.
Proof. intros H. unfold load_personal. rewrite size_of_record_size. now apply records_nth. Qed.

Lemma load_encoded l : (0 < size_of l)%nat -> forall rs tail,
  Forall (fits_record l) rs -> (length tail < size_of l)%nat ->
  load_personal l (concat (map (encode_record l) rs) ++ tail) = map (encode_record l) rs.
Proof.
  intros Hs rs tail H Ht. unfold load_personal. rewrite size_of_record_size.
  enough (E : forall fuel, (length (concat (map (encode_record l) rs) ++ tail) <= fuel)%nat ->
     records fuel (size_of l) (concat (map (encode_record l) rs) ++ tail)
     = map (encode_record l) rs) by now apply E.
  induction H as [|r rs Hr H IH]; intros fuel Hf.
  - cbn [map concat app] in *. destruct fuel; [reflexivity|]. cbn [records].
    now destruct (Nat.leb_spec (size_of l) (length tail)); [lia|].
  - cbn [map concat] in *. rewrite <- app_assoc in *.
    pose proof (encode_record_length l r Hr) as Hl. rewrite app_length, Hl in Hf.
    destruct fuel as [|fuel]; [lia|]. cbn [records].
    rewrite app_length, Hl. destruct (Nat.leb_spec (size_of l) (size_of l + length (concat (map (encode_record l) rs) ++ tail))); [|lia].
    rewrite firstn_app, skipn_app, Hl, Nat.sub_diag, <- Hl, firstn_all, skipn_all, Hl. cbn [firstn skipn app].
    rewrite app_nil_r. f_equal. apply IH. lia.
Qed.

(** ** The record types *)
Fixpoint distinct (l : list string) : bool :=
  match l with [] => true | x :: l' => negb (existsb (String.eqb x) l') && distinct l' end.
Lemma distinct_NoDup l : distinct l = true -> NoDup l.
Proof.
  induction l as [|x l IH]; intros H; [constructor|]. cbn in H. apply andb_prop in H as [H1 H2].
  constructor; [|auto]. intros Hin. apply negb_true_iff in H1.
  assert (existsb (String.eqb x) l = true) by (apply existsb_exists; exists x; split; [exact Hin|apply String.eqb_refl]).
  congruence.
Qed.

Lemma record_types_ok : Forall (fun t => size_of (fst t) = snd t /\ NoDup (map fst (fst t))) record_types.
Proof.
  apply Forall_forall. intros t Ht. split.
  - enough (H : forallb (fun t => Nat.eqb (size_of (fst t)) (snd t)) record_types = true).
    { rewrite forallb_forall in H. now apply Nat.eqb_eq, H. }
    vm_compute; reflexivity.
  - apply distinct_NoDup.
    enough (H : forallb (fun t => distinct (map fst (fst t))) record_types = true).
    { rewrite forallb_forall in H. now apply H. }
    vm_compute; reflexivity.
Qed.

(** ** Tables of games *)
Lemma has_bit g n : negb (N.land g (2^n) =? 0) = N.testbit g n.
Proof.
  destruct (N.testbit g n) eqn:E.
  - apply negb_true_iff, N.eqb_neq. intros H.
    assert (N.testbit (N.land g (2^n)) n = true) by (now rewrite N.land_spec, E, N.pow2_bits_true).
    rewrite H in H0. now rewrite N.bits_0 in H0.
  - apply negb_false_iff, N.eqb_eq. apply N.bits_inj. intros k. rewrite N.land_spec, N.bits_0.
    destruct (N.eq_dec k n) as [->|Hk]; [now rewrite E|].
    rewrite (N.pow2_bits_false n k) by auto. apply andb_false_r.
Qed.

Lemma has_two g n m : negb (N.land g (N.lor (2^n) (2^m)) =? 0) = N.testbit g n || N.testbit g m.
Proof.
  rewrite <- !has_bit, N.land_lor_distr_r.
  destruct (N.eqb_spec (N.lor (N.land g (2^n)) (N.land g (2^m))) 0) as [E|E].
  - apply N.lor_eq_0_iff in E as [-> ->]. reflexivity.
  - cbn [negb]. symmetry. apply orb_true_iff.
    destruct (N.eqb_spec (N.land g (2^n)) 0) as [E1|]; [|now left].
    destruct (N.eqb_spec (N.land g (2^m)) 0) as [E2|]; [|now right].
    exfalso. apply E. now rewrite E1, E2.
Qed.

Lemma table_chain g : get_info_table g
  = match find (fun bt => N.testbit g (fst bt)) table_bits with
    | Some bt => Ok (snd bt)
    | None => Raise NotImplementedError
    end.
Proof.
  unfold get_info_table, RUBY, SAPPHIRE, EMERALD, FIRE_RED, LEAF_GREEN, DIAMOND, PEARL, BLACK, WHITE,
    BLACK2, WHITE2, X, Y, OMEGA_RUBY, ALPHA_SAPPHIRE, SUN, MOON, ULTRA_SUN, ULTRA_MOON, SWORD, SHIELD,
    BRILLIANT_DIAMOND, SHINING_PEARL, LEGENDS_ARCEUS.
  cbv zeta. rewrite !has_two, !has_bit. cbn [find table_bits fst snd].
  repeat match goal with |- context[N.testbit g ?k] => destruct (N.testbit g k); cbn [orb]; [reflexivity|] end.
  all: try reflexivity.
Qed.

Lemma find_split_first {A} (f : A -> bool) l x : find f l = Some x ->
  exists a b, l = a ++ x :: b /\ f x = true /\ Forall (fun e => f e = false) a.
Proof.
  induction l as [|y l IH]; intros H; [discriminate|]. cbn in H. destruct (f y) eqn:E.
  - injection H as ->. exists [], l. now split.
  - destruct (IH H) as (a & b & -> & Hx & Ha). exists (y :: a), b. split; [reflexivity|].
    split; [exact Hx|]. now constructor.
Qed.

Lemma first_unique g : forall (a : list (N * table_name)) b bit t a' b' bit' t',
  a ++ (bit, t) :: b = a' ++ (bit', t') :: b' ->
  Forall (fun e => N.testbit g (fst e) = false) a -> N.testbit g bit = true ->
  Forall (fun e => N.testbit g (fst e) = false) a' -> N.testbit g bit' = true -> t = t'.
Proof.
  induction a as [|x a IH]; intros b bit t a' b' bit' t' E Ha Hb Ha' Hb'.
  - destruct a' as [|y a']; cbn [app] in E.
    + now injection E.
    + injection E as <- _. inversion Ha'. cbn in *. congruence.
  - destruct a' as [|y a']; cbn [app] in E.
    + injection E as -> _. inversion Ha. cbn in *. congruence.
    + injection E as _ E. inversion Ha; inversion Ha'; subst. exact (IH _ _ _ _ _ _ _ E H2 Hb H6 Hb').
Qed.

(** ** Where the fields are *)
Definition entry_ok (l : layout) (e : string * nat * dtype) : bool :=
  match lookup l (fst (fst e)) 0, snd e with
  | Some (o, U8), U8 | Some (o, U16), U16 => Nat.eqb o (snd (fst e))
  | _, _ => false
  end.
Lemma nth_skipn {A} (r : list A) o k x : nth k (skipn o r) x = nth (o + k) r x.
Proof.
  revert o. induction r as [|y r IH]; intros o.
  - rewrite skipn_nil. destruct k, (o + 0)%nat; try reflexivity; destruct o; reflexivity.
  - destruct o; [reflexivity|]. cbn. apply IH.
Qed.
Lemma entry_field l name o d r : entry_ok l (name, o, d) = true -> get_field l r name = Ok (VInt (number_at d o r)).
Proof.
  unfold entry_ok, get_field. cbn [fst snd]. destruct (lookup l name 0) as [[o' [| |k]]|], d; try discriminate;
    intros H; apply Nat.eqb_eq in H; subst o'; cbn [read number_at]; now rewrite !nth_skipn, ?Nat.add_0_r.
Qed.
Lemma positions_ok : forallb (fun t => forallb (entry_ok (fst t)) (snd t)) positions = true.
Proof. vm_compute; reflexivity. Qed.
Lemma field_positions l fields name o d r : In (l, fields) positions -> In (name, o, d) fields ->
  get_field l r name = Ok (VInt (number_at d o r)).
Proof.
  intros H1 H2. apply entry_field. pose proof positions_ok as H. rewrite forallb_forall in H.
  specialize (H _ H1). cbn [fst snd] in H. rewrite forallb_forall in H. exact (H _ H2).
Qed.
