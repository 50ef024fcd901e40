(** Facts about the bundled personal tables, by evaluation. *)
From Coq Require Import NArith Arith String List Bool Lia.
From Verif Require Import Base.Word Model.Personal Model.PersonalLayouts Model.PersonalData3 Model.Trie
  Model.PersRS Model.PersE Model.PersFR Model.PersLG Model.PersDP Model.PersPT Model.PersBW Model.PersB2W2 Model.PersXY Model.PersAO Model.PersSM Model.PersUU
  Model.PersSWSH Model.PersBDSP Model.PersLA Model.BundledPersonal Model.TextData
  Spec.PersonalSpec Spec.PersonalTableSpec Proofs.PersonalProofs Proofs.PersonalTableFast.

Import ListNotations.
Open Scope string_scope.
Open Scope list_scope.
Open Scope N_scope.

Record info := mkInfo { i_layout : layout; i_trie : trie; i_count : N; i_width : N }.
Definition info_of (t : table_name) : option info :=
  match t with
  | T_RS => Some (mkInfo PersonalInfo3 rs_trie 387 28)
  | T_E => Some (mkInfo PersonalInfo3 e_trie 387 28)
  | T_FR => Some (mkInfo PersonalInfo3 fr_trie 387 28)
  | T_LG => Some (mkInfo PersonalInfo3 lg_trie 387 28)
  | T_DP => Some (mkInfo PersonalInfo4 dp_trie 501 44)
  | T_PT => Some (mkInfo PersonalInfo4 pt_trie 508 44)
  | T_HGSS => None
  | T_BW => Some (mkInfo PersonalInfo5BW bw_trie 668 60)
  | T_B2W2 => Some (mkInfo PersonalInfo5B2W2 b2w2_trie 709 76)
  | T_XY => Some (mkInfo PersonalInfo6XY xy_trie 799 64)
  | T_AO => Some (mkInfo PersonalInfo6AO ao_trie 826 80)
  | T_SM => Some (mkInfo PersonalInfo7 sm_trie 961 84)
  | T_UU => Some (mkInfo PersonalInfo7 uu_trie 976 84)
  | T_SWSH => Some (mkInfo PersonalInfo8SWSH swsh_trie 1192 176)
  | T_BDSP => Some (mkInfo PersonalInfo8BDSP bdsp_trie 560 68)
  | T_LA => Some (mkInfo PersonalInfo8LA la_trie 1276 176)
  end.

Lemma source t i : info_of t = Some i ->
  personal_source t = Some (i_layout i, file_bytes (i_trie i) (i_count i * N.of_nat (size_of (i_layout i)))) /\
  i_width i = N.of_nat (size_of (i_layout i)) /\ (0 < size_of (i_layout i))%nat.
Proof.
  destruct t; intros H; [..|injection H as <-]; try (injection H as <-); try discriminate H;
    cbn [i_layout i_trie i_count i_width personal_source];
    (split; [exact eq_refl|split; [exact eq_refl|vm_compute; apply le_n_S, Nat.le_0_l]]).
Qed.
Definition value (i : info) (k : N) (name : string) : option N :=
  cell (i_trie i) (i_width i) (column (i_layout i) name) k.
Lemma reads_value t i k name n : info_of t = Some i -> reads t k name n <-> k < i_count i /\ value i k name = Some n.
Proof.
  intros H. destruct (source t i H) as (S & W & P). unfold value. rewrite W. exact (reads_cell t _ _ _ S P k name n).
Qed.
Lemma counts_info t count : In (t, count) record_counts -> exists i, info_of t = Some i /\ i_count i = count.
Proof.
  intros H. cbn [In record_counts] in H.
  repeat (destruct H as [H|H]; [injection H as <- <-; eexists; split; exact eq_refl|]). destruct H.
Qed.
Lemma info_counts t i : info_of t = Some i -> In (t, i_count i) record_counts.
Proof.
  destruct t; intros H; try (injection H as <-); try discriminate H; cbn [In record_counts i_count]; tauto.
Qed.
Lemma reads_info t k name n : reads t k name n -> exists i, info_of t = Some i.
Proof.
  unfold reads, personal_attr, PERSONAL_INFO. destruct t; try (intros _; eexists; exact eq_refl).
  intros H. discriminate H.
Qed.
Lemma tables_load t count : In (t, count) record_counts ->
  exists l rs, PERSONAL_INFO t = Some (l, rs) /\ N.of_nat (length rs) = count /\ forall r, In r rs -> length r = size_of l.
Proof.
  intros H. destruct (counts_info t count H) as (i & E & <-). destruct (source t i E) as (S & _ & P).
  destruct (table_size t _ _ _ S P) as (rs & A & B). exists (i_layout i), rs. split; [exact A|exact B].
Qed.
Lemma past_the_end t count k name : In (t, count) record_counts -> count <= k ->
  personal_attr t k name = Raise IndexError.
Proof.
  intros H Hk. destruct (tables_load t count H) as (l & rs & E & L & _). unfold personal_attr. rewrite E.
  assert (X : nth_error rs (N.to_nat k) = None) by (apply nth_error_None; lia). now rewrite X.
Qed.

(** ** Checking all records of a table *)
Fixpoint range_from (n : nat) (i : N) : list N := match n with O => [] | S m => i :: range_from m (N.succ i) end.
Definition range (n : N) : list N := range_from (N.to_nat n) 0.
Lemma range_from_in n : forall i k, i <= k < i + N.of_nat n -> In k (range_from n i).
Proof.
  induction n as [|n IH]; intros i k H; [lia|]. cbn [range_from].
  destruct (N.eq_dec i k) as [->|Hne]; [now left|right]. apply IH. lia.
Qed.
Lemma range_in n k : k < n -> In k (range n).
Proof. intros H. apply range_from_in. lia. Qed.
Definition all_cells (i : info) (name : string) (P : N -> N -> bool) : bool :=
  let c := column (i_layout i) name in
  forallb (fun k => match cell (i_trie i) (i_width i) c k with Some v => P k v | None => false end) (range (i_count i)).
Lemma all_cells_ok i name P : all_cells i name P = true ->
  forall k, k < i_count i -> exists v, value i k name = Some v /\ P k v = true.
Proof.
  unfold all_cells. cbv zeta. intros H k Hk. rewrite forallb_forall in H. specialize (H k (range_in _ _ Hk)). cbv beta in H.
  fold (value i k name) in H. destruct (value i k name) as [v|]; [|discriminate H]. exists v. now split.
Qed.
Definition loaded : list table_name := map fst record_counts.
Definition on_tables (f : info -> bool) (l : list table_name) : bool :=
  forallb (fun t => match info_of t with Some i => f i | None => false end) l.
Lemma on_tables_ok f l t i : on_tables f l = true -> In t l -> info_of t = Some i -> f i = true.
Proof.
  intros H Ht E. unfold on_tables in H. rewrite forallb_forall in H. specialize (H t Ht). cbv beta in H. now rewrite E in H.
Qed.
Lemma info_loaded t i : info_of t = Some i -> In t loaded.
Proof. intros H. apply (in_map fst _ _ (info_counts t i H)). Qed.

(** ** Attributes *)
Definition has_number (i : info) (name : string) : bool :=
  match column (i_layout i) name with Some (_, U8) | Some (_, U16) => true | _ => false end.
Lemma numbers_check : on_tables (fun i => forallb (has_number i) numbers) loaded = true.
Proof. vm_cast_no_check (eq_refl true). Qed.
Lemma numbers_read t count k name : In (t, count) record_counts -> In name numbers ->
  (k < count <-> exists n, reads t k name n).
Proof.
  intros H Hn. destruct (counts_info t count H) as (i & E & <-). split.
  - intros Hk. pose proof (on_tables_ok _ _ _ _ numbers_check (info_loaded t i E) E) as C. cbv beta in C.
    rewrite forallb_forall in C. specialize (C name Hn). unfold has_number in C.
    assert (V : exists v, value i k name = Some v).
    { unfold value. destruct (column (i_layout i) name) as [[o [| |m]]|]; try discriminate C; eexists; exact eq_refl. }
    destruct V as (v & V). exists v. apply (reads_value t i _ _ _ E). now split.
  - intros (n & R). exact (proj1 (proj1 (reads_value t i _ _ _ E) R)).
Qed.
Definition member (x : N) (l : list N) : bool := existsb (N.eqb x) l.
Lemma member_in x l : member x l = true -> In x l.
Proof. intros H. apply existsb_exists in H as (y & Hy & E). apply N.eqb_eq in E. now subst y. Qed.
Definition bounded (i : info) (name : string) (b : N) : bool :=
  match column (i_layout i) name with Some _ => all_cells i name (fun _ v => v <? b) | None => true end.
Lemma values_check : on_tables (fun i =>
    bounded i "type_1" 18 && bounded i "type_2" 18 && bounded i "ability_1" 299 && bounded i "ability_2" 299 &&
    bounded i "ability_h" 299 && bounded i "exp_growth" 6 && all_cells i "gender_ratio" (fun _ v => member v gender_ratios))
  loaded = true.
Proof. vm_cast_no_check (eq_refl true). Qed.
Lemma bounded_ok t i k name n b : info_of t = Some i -> bounded i name b = true -> reads t k name n -> n < b.
Proof.
  intros E B R. apply (reads_value t i _ _ _ E) in R as [Hk V]. unfold bounded in B.
  destruct (column (i_layout i) name) eqn:C; [|unfold value in V; rewrite C in V; discriminate V].
  destruct (all_cells_ok i name _ B k Hk) as (v & V' & L). rewrite V in V'. injection V' as <-. now apply N.ltb_lt.
Qed.
Lemma values_ok t k n :
  (forall name, In name ["type_1"; "type_2"] -> reads t k name n -> n < N.of_nat (length TYPES_EN)) /\
  (forall name, In name ["ability_1"; "ability_2"; "ability_h"] -> reads t k name n -> n < N.of_nat (length ABILITIES_EN)) /\
  (reads t k "exp_growth" n -> n < 6) /\ (reads t k "gender_ratio" n -> In n gender_ratios).
Proof.
  assert (G : forall name, reads t k name n -> exists i, info_of t = Some i /\
    (bounded i "type_1" 18 && bounded i "type_2" 18 && bounded i "ability_1" 299 && bounded i "ability_2" 299 &&
     bounded i "ability_h" 299 && bounded i "exp_growth" 6 && all_cells i "gender_ratio" (fun _ v => member v gender_ratios)) = true).
  { intros name R. destruct (reads_info _ _ _ _ R) as (i & E). exists i. split; [exact E|].
    exact (on_tables_ok _ _ _ _ values_check (info_loaded t i E) E). }
  change (N.of_nat (length TYPES_EN)) with 18. change (N.of_nat (length ABILITIES_EN)) with 299.
  repeat split.
  - intros name Hn R. destruct (G name R) as (i & E & C). repeat (apply andb_prop in C as [C ?]).
    destruct Hn as [<-|[<-|[]]]; match goal with R : reads t k ?m n |- _ => apply (bounded_ok t i k m n _ E); [assumption|exact R] end.
  - intros name Hn R. destruct (G name R) as (i & E & C). repeat (apply andb_prop in C as [C ?]).
    destruct Hn as [<-|[<-|[<-|[]]]]; match goal with R : reads t k ?m n |- _ => apply (bounded_ok t i k m n _ E); [assumption|exact R] end.
  - intros R. destruct (G _ R) as (i & E & C). repeat (apply andb_prop in C as [C ?]). match goal with R : reads t k ?m n |- _ => apply (bounded_ok t i k m n _ E); [assumption|exact R] end.
  - intros R. destruct (G _ R) as (i & E & C). apply andb_prop in C as [_ C]. destruct (proj1 (reads_value t i _ _ _ E) R) as [Hk V].
    destruct (all_cells_ok i _ _ C k Hk) as (v & V' & L). rewrite V in V'. injection V' as <-. now apply member_in.
Qed.

(** ** The same species in different games *)
Definition same (j : info) (name : string) (last : N) (i : info) : bool :=
  let c := column (i_layout j) name in
  all_cells i name (fun k v => if (1 <=? k) && (k <=? last) then
    match cell (i_trie j) (i_width j) c k with Some x => x =? v | None => false end else true).
Definition emerald : info := mkInfo PersonalInfo3 e_trie 387 28.
Lemma same_ok t i name last k n : info_of t = Some i -> same emerald name last i = true -> 1 <= k <= last -> last <= 386 ->
  reads T_E k name n <-> reads t k name n.
Proof.
  intros E S Hk Hl. rewrite (reads_value t i _ _ _ E), (reads_value T_E emerald _ _ _ eq_refl).
  assert (B : 387 <= i_count i).
  { pose proof (info_counts t i E) as C. cbn [In record_counts] in C.
    repeat (destruct C as [C|C]; [injection C as _ C; rewrite <- C; vm_compute; discriminate|]). destruct C. }
  destruct (all_cells_ok i name _ S k ltac:(lia)) as (v & V & P). cbv beta in P. fold (value emerald k name) in P.
  rewrite (proj2 (N.leb_le 1 k)), (proj2 (N.leb_le k last)) in P by lia. cbn [andb] in P.
  destruct (value emerald k name) as [x|]; [|discriminate P]. apply N.eqb_eq in P. subst x. rewrite V.
  change (i_count emerald) with 387. split; intros [_ X]; (split; [lia|exact X]).
Qed.
Definition until_5 : list table_name := [T_RS; T_E; T_FR; T_LG; T_DP; T_PT; T_BW; T_B2W2].
Lemma gender_check : on_tables (same emerald "gender_ratio" 386) loaded = true.
Proof. vm_cast_no_check (eq_refl true). Qed.
Lemma stats_check : on_tables (fun i => forallb (fun name => same emerald name 385 i) stats) until_5 = true.
Proof. vm_cast_no_check (eq_refl true). Qed.
Lemma gender_same t count k n : In (t, count) record_counts -> 1 <= k <= 386 ->
  reads T_E k "gender_ratio" n <-> reads t k "gender_ratio" n.
Proof.
  intros H Hk. destruct (counts_info t count H) as (i & E & _).
  apply (same_ok t i _ 386 _ _ E); [|exact Hk|discriminate].
  exact (on_tables_ok _ _ _ _ gender_check (info_loaded t i E) E).
Qed.
Lemma stats_same t k name n : In t until_5 -> In name stats -> 1 <= k <= 385 -> reads T_E k name n <-> reads t k name n.
Proof.
  intros H Hn Hk. destruct (info_of t) as [i|] eqn:E.
  - apply (same_ok t i _ 385 _ _ E); [|exact Hk|discriminate].
    pose proof (on_tables_ok _ _ _ _ stats_check H E) as C. cbv beta in C. rewrite forallb_forall in C. exact (C name Hn).
  - exfalso. destruct t; try discriminate E. cbn in H. repeat (destruct H as [H|H]; [discriminate H|]). exact H.
Qed.

(** ** Forms *)
Definition form_list (first : N) (i : info) : option (list (N * N * N)) :=
  let ci := column (i_layout i) "form_stats_index" in
  let cc := column (i_layout i) "form_count" in
  fold_right (fun k acc =>
    match acc, cell (i_trie i) (i_width i) ci k, cell (i_trie i) (i_width i) cc k with
    | Some l, Some x, Some c => Some (if x =? 0 then l else (k, x, c) :: l)
    | _, _, _ => None
    end) (Some []) (range first).
Definition form_fits (first count : N) (e : N * N * N) : bool :=
  let '(_, x, c) := e in (first <=? x) && (2 <=? c) && (x + c - 1 <=? count).
Definition apart (e f : N * N * N) : bool :=
  let '(_, x, c) := e in let '(_, y, d) := f in (x + c - 1 <=? y) || (y + d - 1 <=? x).
Fixpoint all_apart (l : list (N * N * N)) : bool :=
  match l with [] => true | e :: l' => forallb (apart e) l' && all_apart l' end.
Definition forms_check (first : N) (i : info) : bool :=
  (first <=? i_count i) &&
  match form_list first i with
  | Some l => forallb (form_fits first (i_count i)) l && all_apart l
  | None => false
  end.
Lemma all_apart_ok l : all_apart l = true -> forall e f, In e l -> In f l -> e = f \/ apart e f = true.
Proof.
  induction l as [|g l IH]; intros H e f He Hf; [destruct He|]. cbn in H. apply andb_prop in H as [A B].
  rewrite forallb_forall in A. destruct He as [->|He], Hf as [->|Hf].
  - now left.
  - right. exact (A f Hf).
  - right. specialize (A e He). destruct e as [[k x] c], f as [[k' y] d]. cbn in *. now rewrite orb_comm.
  - exact (IH B e f He Hf).
Qed.
Lemma form_list_ok first i l : form_list first i = Some l -> forall k, k < first ->
  exists x c, value i k "form_stats_index" = Some x /\ value i k "form_count" = Some c /\ (x <> 0 -> In (k, x, c) l).
Proof.
  unfold form_list. cbv zeta. intros H k Hk. apply range_in in Hk. revert l H. induction (range first) as [|j r IH]; intros l H; [destruct Hk|].
  cbn [fold_right] in H. destruct (fold_right _ _ r) as [l'|]; [|discriminate H].
  fold (value i j "form_stats_index") in H. fold (value i j "form_count") in H.
  destruct (value i j "form_stats_index") as [x|] eqn:X; [|discriminate H]. destruct (value i j "form_count") as [c|] eqn:C; [|discriminate H].
  injection H as <-. destruct Hk as [->|Hk].
  - exists x, c. split; [exact X|]. split; [exact C|]. intros Hx. destruct (N.eqb_spec x 0); [contradiction|]. now left.
  - destruct (IH Hk l' eq_refl) as (x' & c' & A & B & D). exists x', c'. split; [exact A|]. split; [exact B|].
    intros Hx. specialize (D Hx). destruct (x =? 0); [exact D|now right].
Qed.
Lemma forms_all : forallb (fun tf => match info_of (fst tf) with Some i => forms_check (snd tf) i | None => false end) first_forms = true.
Proof. vm_cast_no_check (eq_refl true). Qed.

Section Forms.
Variables (t : table_name) (first count : N).
Hypothesis Hf : In (t, first) first_forms.
Hypothesis Hc : In (t, count) record_counts.
Lemma forms_info : exists i l, info_of t = Some i /\ i_count i = count /\ first <= count /\
  form_list first i = Some l /\ forallb (form_fits first count) l = true /\ all_apart l = true.
Proof using Hf Hc.
  destruct (counts_info t count Hc) as (i & E & C). pose proof forms_all as A. rewrite forallb_forall in A.
  specialize (A _ Hf). cbv beta in A. cbn [fst snd] in A. rewrite E in A. unfold forms_check in A. rewrite C in A.
  apply andb_prop in A as [A0 A]. destruct (form_list first i) as [l|] eqn:L; [|discriminate A].
  apply andb_prop in A as [A1 A2]. exists i, l. apply N.leb_le in A0. repeat split; assumption.
Qed.
Lemma form_index k i c : k < first -> reads t k "form_stats_index" i -> reads t k "form_count" c -> i <> 0 ->
  first <= i /\ 2 <= c /\ i + c - 1 <= count.
Proof using Hf Hc.
  intros Hk R1 R2 Hi. destruct forms_info as (j & l & E & C & L & F & A & B).
  apply (proj1 (reads_value t j _ _ _ E)) in R1 as [_ R1]. apply (proj1 (reads_value t j _ _ _ E)) in R2 as [_ R2].
  destruct (form_list_ok _ _ _ F k Hk) as (x & c' & V1 & V2 & I). rewrite R1 in V1. injection V1 as <-. rewrite R2 in V2. injection V2 as <-.
  rewrite forallb_forall in A. specialize (A _ (I Hi)). cbn in A. apply andb_prop in A as [A A3]. apply andb_prop in A as [A1 A2].
  apply N.leb_le in A1, A2, A3. repeat split; assumption.
Qed.
Lemma form_exists k form c : k < first -> reads t k "form_count" c -> form < c ->
  exists n, form_record t k form n /\ n < count.
Proof using Hf Hc.
  intros Hk R Hl. destruct forms_info as (j & l & E & C & L & F & A & B).
  destruct (form_list_ok _ _ _ F k Hk) as (x & c' & V1 & V2 & _).
  assert (R1 : reads t k "form_stats_index" x) by (apply (reads_value t j _ _ _ E); split; [lia|exact V1]).
  destruct (N.eq_dec x 0) as [->|Hx].
  - exists k. split; [|lia]. exact (form_same t k form c R Hl R1).
  - destruct (N.eq_dec form 0) as [->|H0]; [exists k; split; [now constructor|lia]|].
    exists (x + form - 1). split; [exact (form_own t k form c x H0 R Hl R1 Hx)|].
    destruct (form_index k x c Hk R1 R Hx) as (_ & _ & H). lia.
Qed.
Lemma form_place k form n : k < first -> form_record t k form n ->
  (n = k /\ n < first) \/
  (form <> 0 /\ first <= n /\ exists x c, reads t k "form_stats_index" x /\ reads t k "form_count" c /\ x <> 0 /\ form < c /\ n = x + form - 1).
Proof using Hf Hc.
  intros Hk R. inversion R as [H0|c R1 Hl R2|c x H0 R1 Hl R2 Hx]; subst.
  - left. now split.
  - left. now split.
  - right. split; [exact H0|]. destruct (form_index k x c Hk R2 R1 Hx) as (B & _ & _). split; [lia|].
    exists x, c. repeat split; try assumption.
Qed.
Lemma form_owner k k' form form' n : k < first -> k' < first -> form_record t k form n -> form_record t k' form' n ->
  k = k' /\ (n = k \/ form = form').
Proof using Hf Hc.
  intros Hk Hk' R R'. destruct (form_place _ _ _ Hk R) as [[-> L]|(F0 & L & x & c & X & C & Hx & Hl & E)],
    (form_place _ _ _ Hk' R') as [[E' L']|(F0' & L' & x' & c' & X' & C' & Hx' & Hl' & E')].
  - split; [exact E'|now left].
  - lia.
  - lia.
  - destruct forms_info as (j & l & I & _ & _ & F & A & B).
    apply (proj1 (reads_value t j _ _ _ I)) in X as [_ X], C as [_ C], X' as [_ X'], C' as [_ C'].
    destruct (form_list_ok _ _ _ F k Hk) as (y & d & V1 & V2 & M). rewrite X in V1. injection V1 as <-. rewrite C in V2. injection V2 as <-.
    destruct (form_list_ok _ _ _ F k' Hk') as (y & d & V1 & V2 & M'). rewrite X' in V1. injection V1 as <-. rewrite C' in V2. injection V2 as <-.
    destruct (all_apart_ok l B _ _ (M Hx) (M' Hx')) as [Q|Q].
    + injection Q as -> -> ->. split; [reflexivity|]. right. lia.
    + exfalso. cbn in Q. apply orb_prop in Q as [Q|Q]; apply N.leb_le in Q; lia.
Qed.
End Forms.
