From Coq Require Import NArith ZArith List Bool Lia.
From Verif Require Import Base.Word Base.WordLemmas Model.Lcrng32 Model.LcrngClasses.
From Verif Require Import Model.Gen3State Model.Gen3Area Model.Gen3Wild Model.Gen3Update Model.SharedList Model.Heap3.
From Verif Require Import Spec.HeapSpec Proofs.MemoryProofs Proofs.UpdateProofs Proofs.SharedListProofs.
Import ListNotations.
Open Scope N_scope.
Ltac Zify.zify_post_hook ::= idtac.

(** ** arrays *)
Lemma put_length {A} (l : list A) k v : length (put l k v) = length l.
Proof. revert k. induction l as [|x l IH]; intros [|k]; cbn [put length]; congruence. Qed.
Lemma load_put_eq h r a : (r < length h)%nat -> load (put h r a) r = a.
Proof.
  revert r. induction h as [|x h IH]; intros [|r] H; cbn [length] in H; [lia|lia|reflexivity|].
  cbn [put]. unfold load in *. cbn [nth]. apply IH. lia.
Qed.
Lemma load_put_ne h r r' a : r <> r' -> load (put h r a) r' = load h r'.
Proof.
  revert r r'. induction h as [|x h IH]; intros [|r] [|r'] H; unfold load in *; cbn [put nth]; try reflexivity; try lia.
  apply IH. lia.
Qed.
Lemma put_put {A} (h : list A) r a b : put (put h r a) r b = put h r b.
Proof. revert r. induction h as [|x h IH]; intros [|r]; cbn [put]; try reflexivity. now rewrite IH. Qed.
Lemma put_load h r : put h r (load h r) = h.
Proof. revert r. induction h as [|x h IH]; intros [|r]; unfold load in *; cbn [put nth]; try reflexivity. now rewrite IH. Qed.
Lemma put_last {A} (h : list A) c v : put (h ++ [c]) (length h) v = h ++ [v].
Proof. induction h as [|x h IH]; cbn [app length put]; [reflexivity|]. now rewrite IH. Qed.
Lemma load_last h c : load (h ++ [c]) (length h) = c.
Proof. unfold load. rewrite app_nth2 by lia. now rewrite Nat.sub_diag. Qed.
Lemma load_app h e r : (r < length h)%nat -> load (h ++ e) r = load h r.
Proof. intros H. unfold load. now apply app_nth1. Qed.

(** ** update_stats *)
Lemma loop_h ivs stats base level nature ec : ivs <> stats -> forall n k h u, (stats < length h)%nat ->
  u_stats u = load h stats ->
  for_range_r n k (update_body_h ivs stats base level nature ec) (h, u) =
  rmap (fun u' => (put h stats (u_stats u'), u')) (for_range_r n k (update_body (load h ivs) base level nature ec) u).
Proof.
  intros N. induction n as [|n IH]; intros k h u L E; cbn [for_range_r].
  - cbn [rmap]. now rewrite E, put_load.
  - unfold update_body_h at 1.
    replace (mkUpd (u_hpv u) (u_hps u) (load h stats) (u_char u) (u_max_iv u)) with u by (rewrite <- E; destruct u; reflexivity).
    destruct (update_body (load h ivs) base level nature ec k u) as [u'|e]; cbn [rbind]; [|reflexivity].
    rewrite IH.
    + rewrite load_put_ne by congruence.
      destruct (for_range_r n (S k) _ u') as [v|e]; cbn [rmap]; [|reflexivity]. now rewrite put_put.
    + now rewrite put_length.
    + now rewrite load_put_eq.
Qed.

Definition blank (st : gstate) : gstate := set_arrays [] [] st.
Lemma update_h m h o info : so_ivs o <> so_stats o -> (so_stats o < length h)%nat ->
  update_stats_h m h o info =
  rmap (fun st => (put h (so_stats o) (g_stats st), mk_so (so_ivs o) (so_stats o) (blank st))) (update_stats m (view h o) info).
Proof.
  intros N L. unfold update_stats_h, update_stats. cbv zeta. rewrite loop_h by (cbn [u_stats]; auto).
  cbn [g_pid g_ivs g_level g_stats view].
  destruct (for_range_r 6 0 _ _) as [u|e]; reflexivity.
Qed.
Lemma view_blank h i s st : view h (mk_so i s (blank st)) = set_arrays (load h i) (load h s) st.
Proof. reflexivity. Qed.
Lemma update_keeps_ivs m st info st' : update_stats m st info = Ok st' -> g_ivs st' = g_ivs st.
Proof.
  unfold update_stats. cbv zeta. destruct (for_range_r 6 0 _ _) as [u|e]; cbn [rbind]; [|discriminate].
  intros H. inversion H. reflexivity.
Qed.
Lemma set_own st : set_arrays (g_ivs st) (g_stats st) st = st.
Proof. destruct st. reflexivity. Qed.

(** ** construction *)
Lemma new_h m junk rest h advance pid species form ivs ability level shiny info : (ivs < length h)%nat ->
  gstate_new_h m junk rest h advance pid species form ivs ability level shiny info =
  rmap (fun st => (h ++ [load h ivs] ++ [g_stats st], mk_so (length h) (S (length h)) (blank st)))
    (gstate_new m (junk (S (length h))) advance pid species form (load h ivs) ability level shiny info).
Proof.
  intros L. unfold gstate_new_h, alloc. rewrite load_app by exact L. rewrite put_last.
  assert (E : length (h ++ [load h ivs]) = S (length h)) by (rewrite app_length; cbn [length]; lia).
  rewrite E.
  rewrite update_h by (cbn [so_ivs so_stats]; rewrite ?app_length; cbn [length]; lia).
  cbn [so_ivs so_stats].
  assert (P : forall v, put ((h ++ [load h ivs]) ++ [junk (S (length h))]) (S (length h)) v = h ++ [load h ivs] ++ [v]).
  { intros v. rewrite <- E. rewrite put_last. now rewrite <- app_assoc. }
  assert (V : view ((h ++ [load h ivs]) ++ [junk (S (length h))])
     (mk_so (length h) (S (length h)) (gstate_init [] rest advance pid species form [] ability level shiny info)) =
     gstate_init (junk (S (length h))) rest advance pid species form (load h ivs) ability level shiny info).
  { unfold view. cbn [so_rest so_ivs so_stats].
    pose proof (load_last (h ++ [load h ivs]) (junk (S (length h)))) as Q. rewrite E in Q. rewrite Q.
    rewrite (load_app (h ++ [load h ivs])) by (rewrite E; lia). rewrite load_last. reflexivity. }
  rewrite V. rewrite (init_update m (junk (S (length h))) rest).
  destruct (update_stats _ _ _) as [st|e]; cbn [rmap]; [|reflexivity]. now rewrite P.
Qed.

Lemma six (l : list N) : length l = 6%nat -> exists a b c d e f, l = [a; b; c; d; e; f].
Proof.
  intros H. do 6 (destruct l as [|? l]; [discriminate H|]). destruct l; [|discriminate H]. now repeat eexists.
Qed.
Lemma store_last h c i v : store (h ++ [c]) (length h) i v = h ++ [aset c i v].
Proof. unfold store. now rewrite load_last, put_last. Qed.

Section Gen.
Variables (junk : nat -> list N) (junk0 : list N) (rest : gstate).
Hypothesis Hj : forall r, length (junk r) = 6%nat.
Hypothesis Hj0 : length junk0 = 6%nat.

(** the heap grows by the local array of IVs and the two of the state *)
Definition grown (h : heap) (st : gstate) : heap := h ++ [g_ivs st; g_ivs st; g_stats st].
Definition made (h : heap) (st : gstate) : sobj := mk_so (S (length h)) (S (S (length h))) (blank st).

Lemma new_keeps_ivs m j advance pid species form ivs ability level shiny info st :
  gstate_new m j advance pid species form ivs ability level shiny info = Ok st -> g_ivs st = ivs.
Proof.
  unfold gstate_new. cbv zeta. destruct (for_range_r 6 0 _ _) as [u|e]; cbn [rbind]; [|discriminate].
  intros H. inversion H. reflexivity.
Qed.

Lemma finish_h g info h advance species form level go pid :
  finish_state_h g junk rest info h advance species form level go pid =
  rmap (fun st => (grown h st, made h st)) (finish_state g junk0 info advance species form level go pid).
Proof.
  unfold finish_state_h, finish_state. cbv zeta.
  destruct (poke_next_u16 _) as [go1 iv1]. destruct (poke_next_u16 _) as [go2 iv2].
  unfold alloc. rewrite !store_last.
  assert (E : aset (aset (aset (aset (aset (aset (junk (length h)) 0 (N.land iv1 0x1F)) 1 (N.land (N.shiftr iv1 5) 0x1F))
    2 (N.land (N.shiftr iv1 10) 0x1F)) 3 (N.land (N.shiftr iv2 5) 0x1F)) 4 (N.land (N.shiftr iv2 10) 0x1F)) 5 (N.land iv2 0x1F) = ivs_of iv1 iv2).
  { destruct (six _ (Hj (length h))) as (a & b & c & d & e & f & ->). reflexivity. }
  rewrite E. clear E. rewrite new_h by (rewrite app_length; cbn [length]; lia).
  rewrite load_last. rewrite (gstate_memory Numba _ junk0) by auto.
  destruct (gstate_new _ _ _ _ _ _ _ _ _ _ _) as [st|e] eqn:G; cbn [rmap]; [|reflexivity].
  pose proof (new_keeps_ivs _ _ _ _ _ _ _ _ _ _ _ _ G) as K.
  unfold grown, made. rewrite app_length. cbn [length]. rewrite K.
  replace (length h + 1)%nat with (S (length h)) by lia. now rewrite <- app_assoc.
Qed.

Lemma snd_sbind {A B} (x : N * res A) (f : N -> A -> N * res B) :
  snd (sbind x f) = match x with (s, Ok a) => snd (f s a) | (_, Raise e) => Raise e end.
Proof. destruct x as [s [a|e]]; reflexivity. Qed.

Lemma step_h fuel g area mods rate safari rse charm s a h :
  wild_step_h fuel junk rest g area mods rate safari rse charm s a h =
  rmap (fun '(c, o) => (c, option_map (fun st => (grown h st, made h st)) o))
       (wild_step fuel junk0 g area mods rate safari rse charm s a).
Proof.
  unfold wild_step_h, wild_step. cbv zeta. rewrite !snd_sbind.
  match goal with |- match ?c with _ => _ end = _ => destruct c as [go [skip|e]]; [|reflexivity] end.
  destruct skip; [reflexivity|]. rewrite !snd_sbind.
  destruct (calculate_hslot_lead _ _ _ _ _) as [go1 [sl|e]]; [|reflexivity]. rewrite !snd_sbind.
  destruct (calculate_level _ _ _) as [go2 [lv|e]]; [|reflexivity].
  destruct (nth_error _ _) as [info|]; [|reflexivity]. rewrite !snd_sbind.
  destruct (roll_cute_charm _ _ _ _) as [go3 [c|e]]; [|reflexivity]. rewrite !snd_sbind.
  destruct (roll_nature _ _) as [go4 [n|e]]; [|reflexivity].
  destruct (pid_search _ _ _ _ _ _ _ _) as [[go5 pid]|e]; [|reflexivity].
  cbn [snd]. rewrite finish_h.
  destruct (finish_state _ _ _ _ _ _ _ _ _) as [st|e]; reflexivity.
Qed.

Lemma view_app h e o : (so_ivs o < length h)%nat -> (so_stats o < length h)%nat -> view (h ++ e) o = view h o.
Proof. intros A B. unfold view. now rewrite !load_app. Qed.
Lemma view_made h st : view (grown h st) (made h st) = st.
Proof.
  unfold made, grown. rewrite view_blank.
  assert (L : forall k, load (h ++ [g_ivs st; g_ivs st; g_stats st]) (k + length h) = load [g_ivs st; g_ivs st; g_stats st] k).
  { intros k. unfold load. rewrite app_nth2 by lia. f_equal. lia. }
  pose proof (L 1%nat) as L1. pose proof (L 2%nat) as L2. cbn [Nat.add] in L1, L2. rewrite L1, L2. apply set_own.
Qed.

(** all that is promised of a list of states *)
Definition own_arrays (h0 : nat) (h : heap) (objs : list sobj) : Prop :=
  separate h objs /\ forall r, In r (flat_map refs objs) -> (h0 <= r)%nat.

Lemma own_grown h0 h objs st : (h0 <= length h)%nat -> own_arrays h0 h objs -> own_arrays h0 (grown h st) (objs ++ [made h st]).
Proof.
  intros L0 [[D B] G]. unfold own_arrays, separate.
  rewrite flat_map_app. cbn [flat_map refs made so_ivs so_stats app].
  assert (Lg : length (grown h st) = (3 + length h)%nat) by (unfold grown; rewrite app_length; cbn [length]; lia).
  split; [split|].
  - assert (A : forall l : list nat, NoDup l -> (forall r, In r l -> (r < length h)%nat) -> NoDup (l ++ [S (length h); S (S (length h))])).
    { clear. induction l as [|x l IH]; intros D B.
      - cbn [app]. constructor; [intros [K|[]]; lia|]. constructor; [intros []|constructor].
      - inversion D as [|y z D1 D2]; subst. cbn [app]. constructor.
        + intros K. apply in_app_or in K. destruct K as [K|[K|[K|[]]]]; [contradiction| |]; specialize (B x (or_introl eq_refl)); lia.
        + apply IH; [exact D2|]. intros r Hr. apply B. now right. }
    now apply A.
  - intros r Hr. rewrite Lg. apply in_app_or in Hr. destruct Hr as [K|[K|[K|[]]]]; [specialize (B r K)| |]; lia.
  - intros r Hr. apply in_app_or in Hr. destruct Hr as [K|[K|[K|[]]]]; [exact (G r K)| |]; lia.
Qed.

Lemma loop_gen fuel g area mods rate safari rse : forall n a s charm h0 h objs,
  (length h0 <= length h)%nat -> (exists e, h = h0 ++ e) -> own_arrays (length h0) h objs ->
  match wild_loop_h fuel junk rest g area mods rate safari rse n a s charm h objs,
        wild_loop fuel junk0 g area mods rate safari rse n a s charm with
  | Ok (h', objs'), Ok sts =>
      map (view h') objs' = map (view h) objs ++ sts /\ (exists e, h' = h0 ++ e) /\ own_arrays (length h0) h' objs'
  | Raise e, Raise e' => e = e'
  | _, _ => False
  end.
Proof.
  induction n as [|n IH]; intros a s charm h0 h objs L0 X O; cbn [wild_loop_h wild_loop].
  - split; [now rewrite app_nil_r|]. split; assumption.
  - rewrite step_h. destruct (wild_step fuel junk0 g area mods rate safari rse charm s a) as [[c [st|]]|e]; cbn [rmap rbind option_map].
    + assert (L1 : (length h0 <= length (grown h st))%nat) by (unfold grown; rewrite app_length; lia).
      assert (X1 : exists e, grown h st = h0 ++ e).
      { destruct X as [e ->]. exists (e ++ [g_ivs st; g_ivs st; g_stats st]). unfold grown. now rewrite app_assoc. }
      specialize (IH (a + 1) (poke_next s) c h0 (grown h st) (objs ++ [made h st]) L1 X1 (own_grown _ _ _ st L0 O)).
      destruct (wild_loop_h _ _ _ _ _ _ _ _ _ _ _ _ _ _ _) as [[h' objs']|e];
        destruct (wild_loop _ _ _ _ _ _ _ _ _ _ _ _) as [sts|e']; cbn [rmap]; try exact IH.
      destruct IH as (V & X' & O'). split; [|split; assumption].
      rewrite V, map_app. cbn [map]. rewrite view_made, <- app_assoc. cbn [app]. f_equal.
      apply map_ext_in. intros o Ho. destruct O as [[_ B] _].
      assert (F : forall r, In r (refs o) -> (r < length h)%nat).
      { intros r Hr. apply B. apply in_flat_map. exists o. split; assumption. }
      apply view_app; apply F; cbn [refs In]; auto.
    + exact (IH (a + 1) s c h0 h objs L0 X O).
    + reflexivity.
Qed.

Lemma generate_h fuel g seed delay initial advances area h :
  match wild_generate_h fuel junk rest g seed delay initial advances area h,
        wild_generate fuel junk0 g seed delay initial advances area with
  | Ok (h', objs), Ok sts =>
      map (view h') objs = sts /\ (exists e, h' = h ++ e) /\ own_arrays (length h) h' objs
  | Raise e, Raise e' => e = e'
  | _, _ => False
  end.
Proof.
  unfold wild_generate_h, wild_generate. destruct (get_modified_slots _ _ _ _ _) as [mods|e]; cbn [rbind]; [|reflexivity].
  cbv zeta. destruct (poke_jump _ _) as [rng [u|e]]; [|reflexivity].
  apply (loop_gen fuel g area mods _ _ _ _ _ _ _ h h []); [lia|now exists []; rewrite app_nil_r|].
  split; [split; [constructor|]|]; intros r [].
Qed.
End Gen.

(** ** afterwards *)
Lemma in_refs objs k o r : nth_error objs k = Some o -> In r (refs o) -> In r (flat_map refs objs).
Proof. intros H K. apply in_flat_map. exists o. split; [eapply nth_error_In; exact H|exact K]. Qed.
Lemma apart_refs objs : NoDup (flat_map refs objs) -> forall j k o o' r, nth_error objs j = Some o -> nth_error objs k = Some o' ->
  In r (refs o) -> In r (refs o') -> j = k.
Proof.
  induction objs as [|x objs IH]; intros D [|j] [|k] o o' r H H' K K'; cbn [nth_error] in *; try discriminate; try reflexivity.
  - exfalso. inversion H; subst x. cbn [flat_map] in D. pose proof (in_refs _ _ _ _ H' K') as Q.
    cbn [refs app] in D. inversion D as [|y z D1 D2]; subst. inversion D2 as [|y z D3 D4]; subst.
    destruct K as [K|[K|[]]]; subst r; [apply D1; now right|now apply D3].
  - exfalso. inversion H'; subst x. cbn [flat_map] in D. pose proof (in_refs _ _ _ _ H K) as Q.
    cbn [refs app] in D. inversion D as [|y z D1 D2]; subst. inversion D2 as [|y z D3 D4]; subst.
    destruct K' as [K'|[K'|[]]]; subst r; [apply D1; now right|now apply D3].
  - f_equal. apply (IH) with (o := o) (o' := o') (r := r); try assumption.
    cbn [flat_map refs app] in D. inversion D as [|y z D1 D2]; subst. now inversion D2.
Qed.
Lemma own_two objs : NoDup (flat_map refs objs) -> forall k o, nth_error objs k = Some o -> so_ivs o <> so_stats o.
Proof.
  induction objs as [|x objs IH]; intros D [|k] o H; cbn [nth_error] in H; try discriminate.
  - inversion H; subst x. cbn [flat_map refs app] in D. inversion D as [|y z D1 D2]; subst. intros E. apply D1. left. congruence.
  - apply (IH) with (k := k); [|exact H]. cbn [flat_map refs app] in D. inversion D as [|y z D1 D2]; subst. now inversion D2.
Qed.
Lemma put_same {A} (l : list A) k x : nth_error l k = Some x -> put l k x = l.
Proof. revert k. induction l as [|y l IH]; intros [|k] H; cbn in *; try discriminate; [now inversion H|]. now rewrite IH. Qed.
Lemma refs_put objs k o o' : nth_error objs k = Some o -> refs o' = refs o -> flat_map refs (put objs k o') = flat_map refs objs.
Proof.
  revert k. induction objs as [|x objs IH]; intros [|k] H E; cbn [nth_error put flat_map] in *; try discriminate.
  - inversion H; subst. now rewrite E.
  - now rewrite (IH k H E).
Qed.
Lemma map_put h h' objs : forall k o v, (forall j o', j <> k -> nth_error objs j = Some o' -> view h' o' = view h o') ->
  view h' o = v -> map (view h') (put objs k o) = put (map (view h) objs) k v.
Proof.
  induction objs as [|x objs IH]; intros [|k] o v F E; cbn [put map]; try reflexivity.
  - rewrite E. f_equal. apply map_ext_in. intros y Hy. destruct (In_nth_error _ _ Hy) as [j Hj]. now apply (F (S j)).
  - f_equal; [now apply (F 0%nat)|]. apply IH; [|exact E]. intros j o' N H. apply (F (S j)); [lia|exact H].
Qed.

Lemma view_other h r a o : ~ In r (refs o) -> view (put h r a) o = view h o.
Proof.
  intros N. unfold view. rewrite !load_put_ne; [reflexivity| |]; intros E; apply N; subst r; cbn [refs In]; auto.
Qed.
Lemma others h objs k o r a : separate h objs -> nth_error objs k = Some o -> In r (refs o) ->
  forall j o', j <> k -> nth_error objs j = Some o' -> view (put h r a) o' = view h o'.
Proof.
  intros [D _] H K j o' N H'. apply view_other. intros K'. apply N. exact (apart_refs objs D j k o' o r H' H K' K).
Qed.

Lemma act_ok m h objs a : separate h objs -> spares_arrays a ->
  match act_h m (h, objs) a, act_v m (map (view h) objs) a with
  | Ok (h', objs'), Ok sts => map (view h') objs' = sts /\ separate h' objs'
  | Raise e, Raise e' => e = e'
  | _, _ => False
  end.
Proof.
  intros Sep Sp. pose proof Sep as [D B].
  assert (LT : forall k o r, nth_error objs k = Some o -> In r (refs o) -> (r < length h)%nat).
  { intros k o r H K. apply B. exact (in_refs _ _ _ _ H K). }
  destruct a as [k i v|k i v|k f|k info]; cbn [act_h act_v]; rewrite nth_error_map; destruct (nth_error objs k) as [o|] eqn:E;
    cbn [option_map rbind]; try (split; [reflexivity|exact Sep]).
  - assert (R : In (so_ivs o) (refs o)) by (cbn [refs In]; auto).
    split; [|split; [exact D|unfold store; now rewrite put_length]].
    rewrite <- (put_same objs k o E) at 1. unfold store.
    apply map_put; [exact (others h objs k o _ _ Sep E R)|].
    unfold view, set_arrays. cbn [g_advance g_pid g_species g_form g_stats g_ability_index g_ivs g_ability g_characteristic g_gender g_hidden_power g_hidden_power_strength g_level g_nature g_shiny].
    rewrite load_put_eq by exact (LT k o _ E R). rewrite load_put_ne by exact (own_two objs D k o E). reflexivity.
  - assert (R : In (so_stats o) (refs o)) by (cbn [refs In]; auto).
    split; [|split; [exact D|unfold store; now rewrite put_length]].
    rewrite <- (put_same objs k o E) at 1. unfold store.
    apply map_put; [exact (others h objs k o _ _ Sep E R)|].
    unfold view, set_arrays. cbn [g_advance g_pid g_species g_form g_stats g_ability_index g_ivs g_ability g_characteristic g_gender g_hidden_power g_hidden_power_strength g_level g_nature g_shiny].
    rewrite load_put_eq by exact (LT k o _ E R). pose proof (own_two objs D k o E) as N. rewrite load_put_ne by congruence. reflexivity.
  - split.
    + apply map_put; [reflexivity|]. exact (eq_sym (Sp (load h (so_ivs o)) (load h (so_stats o)) (so_rest o))).
    + split; rewrite (refs_put objs k o (mk_so (so_ivs o) (so_stats o) (f (so_rest o))) E eq_refl); assumption.
  - assert (R : In (so_stats o) (refs o)) by (cbn [refs In]; auto).
    pose proof (own_two objs D k o E) as N.
    rewrite (update_h m h o info N (LT k o _ E R)).
    destruct (update_stats m (view h o) info) as [st|e] eqn:U; cbn [rmap rbind]; [|reflexivity].
    split.
    + apply map_put; [exact (others h objs k o _ _ Sep E R)|]. rewrite view_blank.
      rewrite load_put_eq by exact (LT k o _ E R). rewrite load_put_ne by congruence.
      pose proof (update_keeps_ivs _ _ _ _ U) as K. cbn [view g_ivs] in K. rewrite <- K. apply set_own.
    + assert (Q := refs_put objs k o (mk_so (so_ivs o) (so_stats o) (blank st)) E eq_refl).
      split; rewrite Q; [exact D|]. now rewrite put_length.
Qed.

Lemma acts_ok m l : forall h objs, separate h objs -> Forall spares_arrays l ->
  stands_for (acts_h m (h, objs) l) (acts_v m (map (view h) objs) l).
Proof.
  induction l as [|a l IH]; intros h objs Sep F; cbn [acts_h acts_v]; [reflexivity|].
  inversion F as [|x y F1 F2]; subst. pose proof (act_ok m h objs a Sep F1) as A.
  destruct (act_h m (h, objs) a) as [[h' objs']|e], (act_v m (map (view h) objs) a) as [sts|e']; cbn [rbind]; try contradiction; [|exact A].
  destruct A as [<- Sep']. now apply IH.
Qed.

Lemma generate_then fuel junk junk0 rest g seed delay initial advances area h m l :
  (forall r, length (junk r) = 6%nat) -> length junk0 = 6%nat -> Forall spares_arrays l ->
  stands_for (rbind (wild_generate_h fuel junk rest g seed delay initial advances area h) (fun s => acts_h m s l))
             (rbind (wild_generate fuel junk0 g seed delay initial advances area) (fun sts => acts_v m sts l)).
Proof.
  intros Hj Hj0 F. pose proof (generate_h junk junk0 rest Hj Hj0 fuel g seed delay initial advances area h) as G.
  destruct (wild_generate_h _ _ _ _ _ _ _ _ _ _) as [[h' objs]|e], (wild_generate _ _ _ _ _ _ _ _) as [sts|e'];
    cbn [rbind]; try contradiction; [|exact G].
  destruct G as (<- & _ & (Sep & _)). now apply acts_ok.
Qed.
Lemma generate_own fuel junk junk0 rest g seed delay initial advances area h h' objs :
  (forall r, length (junk r) = 6%nat) -> length junk0 = 6%nat ->
  wild_generate_h fuel junk rest g seed delay initial advances area h = Ok (h', objs) ->
  wild_generate fuel junk0 g seed delay initial advances area = Ok (map (view h') objs) /\
  separate h' objs /\ (forall r, In r (flat_map refs objs) -> (length h <= r)%nat) /\ firstn (length h) h' = h.
Proof.
  intros Hj Hj0 E. pose proof (generate_h junk junk0 rest Hj Hj0 fuel g seed delay initial advances area h) as G.
  rewrite E in G. destruct (wild_generate _ _ _ _ _ _ _ _) as [sts|e']; [|contradiction].
  destruct G as (<- & [e ->] & (Sep & K)). split; [reflexivity|]. split; [exact Sep|]. split; [exact K|].
  rewrite firstn_app, Nat.sub_diag, firstn_all, firstn_O. apply app_nil_r.
Qed.

Lemma constructor_own m junk rest h advance pid species form ivs ability level shiny info h' o :
  (forall r, length (junk r) = 6%nat) -> (ivs < length h)%nat ->
  gstate_new_h m junk rest h advance pid species form ivs ability level shiny info = Ok (h', o) ->
  (forall junk0, length junk0 = 6%nat ->
     gstate_new m junk0 advance pid species form (load h ivs) ability level shiny info = Ok (view h' o)) /\
  separate h' [o] /\ (forall r, In r (refs o) -> (length h <= r)%nat) /\ firstn (length h) h' = h /\
  forall r i v, (r < length h)%nat -> view (store h' r i v) o = view h' o.
Proof.
  intros Hj L E. rewrite new_h in E by exact L.
  destruct (gstate_new m _ _ _ _ _ _ _ _ _ _) as [st|e] eqn:G; cbn [rmap] in E; [|discriminate].
  assert (E1 : h' = h ++ [load h ivs] ++ [g_stats st]) by congruence.
  assert (E2 : o = mk_so (length h) (S (length h)) (blank st)) by congruence. clear E. subst h' o.
  assert (R : forall r, In r (refs (mk_so (length h) (S (length h)) (blank st))) -> (length h <= r)%nat).
  { intros r [K|[K|[]]]; cbn [so_ivs so_stats] in K; lia. }
  split; [|split; [|split; [exact R|split]]].
  - intros junk0 L0. rewrite (gstate_memory m junk0 (junk (S (length h)))) by auto. rewrite G.
    rewrite view_blank. cbn [app].
    assert (Q : forall k, load (h ++ [load h ivs; g_stats st]) (k + length h) = load [load h ivs; g_stats st] k).
    { intros k. unfold load. rewrite app_nth2 by lia. f_equal. lia. }
    pose proof (Q 0%nat) as Q0. pose proof (Q 1%nat) as Q1. cbn [Nat.add] in Q0, Q1. rewrite Q0, Q1.
    pose proof (new_keeps_ivs _ _ _ _ _ _ _ _ _ _ _ _ G) as K.
    assert (Q2 : load [load h ivs; g_stats st] 0 = g_ivs st) by (rewrite K; reflexivity).
    assert (Q3 : load [load h ivs; g_stats st] 1 = g_stats st) by reflexivity.
    rewrite Q2, Q3. now rewrite set_own.
  - split.
    + cbn [flat_map refs app so_ivs so_stats]. constructor; [intros [K|[]]; lia|]. constructor; [intros []|constructor].
    + cbn [flat_map refs app so_ivs so_stats]. rewrite !app_length. cbn [length]. intros r [K|[K|[]]]; lia.
  - rewrite firstn_app, Nat.sub_diag, firstn_all, firstn_O. apply app_nil_r.
  - intros r i v Hr. apply view_other. intros K. specialize (R r K). lia.
Qed.
