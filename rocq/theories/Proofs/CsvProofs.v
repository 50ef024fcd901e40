(** The text of a state: it exists, and it shows what it is made of. *)
From Coq Require Import NArith ZArith Ascii String List Bool Lia SpecFloat Decimal DecimalString DecimalN DecimalFacts FMapPositive.
From Verif Require Import Base.Word Model.Util Model.TextData Model.Names Model.Gen3State Model.Gen3Area Model.Gen3Wild Model.Gen3Csv
  Spec.LcrngSpec Spec.Gen3Spec Spec.Gen3WildSpec Proofs.UtilProofs Proofs.Gen3Props.
Import ListNotations.
Open Scope string_scope.
Open Scope list_scope.
Open Scope N_scope.

(** ** Strings without a character *)
Fixpoint lacks (c : ascii) (s : string) : bool :=
  match s with
  | EmptyString => true
  | String d s' => negb (Ascii.eqb d c) && lacks c s'
  end.
Lemma lacks_app c a b : lacks c (a ++ b) = lacks c a && lacks c b.
Proof. induction a as [|d a IH]; [reflexivity|]. cbn. now rewrite IH, andb_assoc. Qed.
(** Splitting at the first [c]. *)
Lemma split_first c a b r r' : lacks c a = true -> lacks c b = true ->
  (a ++ String c r)%string = (b ++ String c r')%string -> a = b /\ r = r'.
Proof.
  revert b. induction a as [|x a IH]; intros [|y b] A B E; cbn in *.
  - injection E as E. auto.
  - injection E as Ec _. subst y. now rewrite Ascii.eqb_refl in B.
  - injection E as Ec _. subst x. now rewrite Ascii.eqb_refl in A.
  - injection E as -> E. apply andb_prop in A, B. destruct A as [_ A], B as [_ B].
    destruct (IH b A B E) as [-> ->]. auto.
Qed.
(** Splitting at the last [c]. *)
Lemma lacks_split c a r s : lacks c s = true -> (a ++ String c r)%string = s -> False.
Proof. intros L <-. rewrite lacks_app in L. cbn in L. now rewrite Ascii.eqb_refl, andb_false_r in L. Qed.
Lemma split_last c a b r r' : lacks c r = true -> lacks c r' = true ->
  (a ++ String c r)%string = (b ++ String c r')%string -> a = b /\ r = r'.
Proof.
  revert b. induction a as [|x a IH]; intros [|y b] A B E; cbn in *.
  - injection E as E. auto.
  - injection E as Ec E. exfalso. exact (lacks_split c b r' r A (eq_sym E)).
  - injection E as Ec E. exfalso. exact (lacks_split c a r r' B E).
  - injection E as -> E. destruct (IH b A B E) as [-> ->]. auto.
Qed.
Lemma length_append a b : String.length (a ++ b) = (String.length a + String.length b)%nat.
Proof. induction a as [|x a IH]; [reflexivity|]. cbn. now rewrite IH. Qed.
Lemma append_inj_l a b r : (a ++ r)%string = (b ++ r)%string -> a = b.
Proof.
  intros E. assert (L : String.length a = String.length b).
  { pose proof (f_equal String.length E) as L. rewrite !length_append in L. lia. }
  revert b L E. induction a as [|x a IH]; intros [|y b] L E; try discriminate L; [reflexivity|].
  cbn in *. injection E as -> E. injection L as L. now rewrite (IH b L E).
Qed.
Lemma append_inj_r a r r' : (a ++ r)%string = (a ++ r')%string -> r = r'.
Proof. induction a as [|x a IH]; [auto|]. cbn. intros E. injection E as E. auto. Qed.
Lemma append_assoc a b c : ((a ++ b) ++ c)%string = (a ++ (b ++ c))%string.
Proof. induction a as [|x a IH]; [reflexivity|]. cbn. now rewrite IH. Qed.

(** ** Numbers *)
Definition digit (c : ascii) : bool := (48 <=? N_of_ascii c) && (N_of_ascii c <=? 57).
Fixpoint all_digits (s : string) : bool :=
  match s with EmptyString => true | String c s' => digit c && all_digits s' end.
Lemma digits_lack c s : digit c = false -> all_digits s = true -> lacks c s = true.
Proof.
  intros Hc. induction s as [|d s IH]; [reflexivity|]. cbn. intros H. apply andb_prop in H. destruct H as [H1 H2].
  rewrite (IH H2), andb_true_r. destruct (Ascii.eqb_spec d c) as [->|]; [congruence|reflexivity].
Qed.
Lemma digits_empty d : all_digits (NilEmpty.string_of_uint d) = true.
Proof. induction d; cbn; auto. Qed.
Lemma to_uint_nonnil n : N.to_uint n <> Nil.
Proof.
  destruct n as [|p]; [discriminate|]. cbn. exact (DecimalPos.Unsigned.to_uint_nonnil p).
Qed.
Lemma show_digits n : all_digits (show n) = true.
Proof.
  unfold show, NilZero.string_of_uint. destruct (N.to_uint n) eqn:E; try apply digits_empty.
  reflexivity.
Qed.
Lemma show_inj a b : show a = show b -> a = b.
Proof.
  unfold show. intros E. apply (f_equal NilZero.uint_of_string) in E.
  rewrite !NilZero.usu in E by apply to_uint_nonnil. injection E as E.
  now apply Unsigned.to_uint_inj.
Qed.
Lemma show_lacks c n : digit c = false -> lacks c (show n) = true.
Proof. intros H. apply digits_lack; [exact H|apply show_digits]. Qed.
Lemma show_cons n : exists c s, show n = String c s.
Proof.
  unfold show, NilZero.string_of_uint. pose proof (to_uint_nonnil n) as H.
  destruct (N.to_uint n); try contradiction; cbn; eauto.
Qed.

(** ** Tables *)
Lemma look_ok {A} (t : list A) i : i < N.of_nat (length t) -> exists x, look t i = Ok x /\ In x t.
Proof.
  intros H. unfold look. destruct (nth_error t (N.to_nat i)) as [x|] eqn:E.
  - exists x. split; [reflexivity|]. now apply nth_error_In in E.
  - apply nth_error_None in E. lia.
Qed.
Lemma look_nth {A} (t : list A) i x : look t i = Ok x -> nth_error t (N.to_nat i) = Some x.
Proof. unfold look. destruct (nth_error t (N.to_nat i)); congruence. Qed.
Lemma look_In {A} (t : list A) i x : look t i = Ok x -> In x t.
Proof. intros H. apply look_nth in H. now apply nth_error_In in H. Qed.

(** A table without repetitions: every name is found again at its own position in a
    search tree filled from the table. *)
Fixpoint key (s : string) : positive :=
  match s with
  | EmptyString => 1%positive
  | String (Ascii b0 b1 b2 b3 b4 b5 b6 b7) s' =>
      let bit (b : bool) p := if b then xI p else xO p in
      bit b0 (bit b1 (bit b2 (bit b3 (bit b4 (bit b5 (bit b6 (bit b7 (key s'))))))))
  end.
Fixpoint fill (i : N) (t : list string) (m : PositiveMap.t N) : PositiveMap.t N :=
  match t with
  | [] => m
  | s :: t' => fill (i + 1) t' (PositiveMap.add (key s) i m)
  end.
Fixpoint found (i : N) (t : list string) (m : PositiveMap.t N) : bool :=
  match t with
  | [] => true
  | s :: t' => match PositiveMap.find (key s) m with Some j => j =? i | None => false end && found (i + 1) t' m
  end.
Definition distinct (t : list string) : bool := found 0 t (fill 0 t (PositiveMap.empty N)).
Lemma found_at m : forall t i k s, found i t m = true -> nth_error t k = Some s ->
  PositiveMap.find (key s) m = Some (i + N.of_nat k).
Proof.
  induction t as [|x t IH]; intros i k s H E; [destruct k; discriminate|].
  cbn in H. apply andb_prop in H. destruct H as [H1 H2]. destruct k as [|k].
  - cbn in E. injection E as ->. destruct (PositiveMap.find (key s) m) as [j|]; [|discriminate].
    apply N.eqb_eq in H1. subst j. f_equal. lia.
  - cbn in E. rewrite (IH (i + 1) k s H2 E). f_equal. lia.
Qed.
Lemma distinct_ok t i j s : distinct t = true -> look t i = Ok s -> look t j = Ok s -> i = j.
Proof.
  intros D Hi Hj. apply look_nth in Hi, Hj. unfold distinct in D.
  pose proof (found_at _ _ _ _ _ D Hi) as A. pose proof (found_at _ _ _ _ _ D Hj) as B.
  rewrite A in B. injection B as B. lia.
Qed.
Lemma species_distinct : distinct SPECIES_EN = true. Proof. vm_compute. reflexivity. Qed.
Lemma natures_distinct : distinct NATURES_EN = true. Proof. vm_compute. reflexivity. Qed.
Lemma types_distinct : distinct TYPES_EN = true. Proof. vm_compute. reflexivity. Qed.
Lemma genders_distinct : distinct GENDER_SYMBOLS = true. Proof. vm_compute. reflexivity. Qed.

Definition clean (c : ascii) (t : list string) : bool := forallb (lacks c) t.
Lemma clean_look c t i s : clean c t = true -> look t i = Ok s -> lacks c s = true.
Proof. intros H E. unfold clean in H. rewrite forallb_forall in H. apply H. exact (look_In _ _ _ E). Qed.

(** No name with a hyphen ends in a digit. *)
Fixpoint ends_in_digit (s : string) : bool :=
  match s with
  | EmptyString => false
  | String c EmptyString => digit c
  | String _ s' => ends_in_digit s'
  end.
Definition hyphen_safe (s : string) : bool := lacks "-" s || negb (ends_in_digit s).
Lemma species_hyphens : forallb hyphen_safe SPECIES_EN = true. Proof. vm_compute. reflexivity. Qed.
Lemma ends_digits a c s : all_digits (String c s) = true -> ends_in_digit (a ++ String c s) = true.
Proof.
  intros H. induction a as [|x a IH].
  - cbn [append]. revert c H. induction s as [|d s IH]; intros c H.
    + cbn in *. now rewrite andb_true_r in H.
    + cbn in H. apply andb_prop in H. destruct H as [_ H]. exact (IH d H).
  - change (String x a ++ String c s)%string with (String x (a ++ String c s)).
    destruct (a ++ String c s)%string eqn:E; [destruct a; discriminate E|exact IH].
Qed.

(** ** Rows *)
Lemma rbind_ok {A B} (x : res A) (f : A -> res B) y : rbind x f = Ok y -> exists a, x = Ok a /\ f a = Ok y.
Proof. destruct x as [a|e]; cbn; intros H; [exists a; auto|discriminate]. Qed.
Ltac open H := let a := fresh "v" in let E := fresh "E" in apply rbind_ok in H; destruct H as [a [E H]].

Lemma six_ok (l : list N) : length l = 6%nat -> exists s, six l = Ok s.
Proof.
  intros H. do 6 (destruct l as [|? l]; [discriminate|]). destruct l; [|discriminate].
  eexists. reflexivity.
Qed.
Lemma six_inv l s : six l = Ok s -> exists a b c d e f r, l = a :: b :: c :: d :: e :: f :: r /\
  s = (show a ++ "/" ++ show b ++ "/" ++ show c ++ "/" ++ show d ++ "/" ++ show e ++ "/" ++ show f)%string.
Proof.
  intros H. do 6 (destruct l as [|? l]; [discriminate H|]). cbn in H. injection H as <-.
  repeat eexists.
Qed.
Lemma six_inj l l' s : six l = Ok s -> six l' = Ok s -> firstn 6 l = firstn 6 l'.
Proof.
  intros H H'. apply six_inv in H, H'.
  destruct H as (a & b & c & d & e & f & r & -> & ->).
  destruct H' as (a' & b' & c' & d' & e' & f' & r' & -> & E).
  assert (Q : forall n, lacks "/" (show n) = true) by (intros n; now apply show_lacks).
  cbn [append] in E.
  do 5 (apply split_first in E; [|apply Q|apply Q]; let X := fresh in destruct E as [X E]; apply show_inj in X; subst).
  apply show_inj in E. subst. reflexivity.
Qed.

Definition species_text (name : string) (form : N) : string :=
  (name ++ (if (form =? 0)%N then "" else "-" ++ show form))%string.
Lemma append_nil a : (a ++ "")%string = a.
Proof. induction a as [|x a IH]; [reflexivity|]. cbn. now rewrite IH. Qed.
Lemma species_text_inj i j n n' f f' : look SPECIES_EN i = Ok n -> look SPECIES_EN j = Ok n' ->
  species_text n f = species_text n' f' -> i = j /\ f = f'.
Proof.
  intros Hi Hj E.
  assert (S : forall k m, look SPECIES_EN k = Ok m -> hyphen_safe m = true).
  { intros k m Hk. pose proof species_hyphens as P. rewrite forallb_forall in P. apply P. exact (look_In _ _ _ Hk). }
  assert (X : forall m m' g, hyphen_safe m = true -> m = (m' ++ String "-" (show g))%string -> False).
  { intros m m' g P ->. unfold hyphen_safe in P. apply orb_prop in P. destruct P as [P|P].
    - exact (lacks_split _ _ _ _ P eq_refl).
    - destruct (show_cons g) as (c & s & Eg). pose proof (show_digits g) as D. rewrite Eg in D, P.
      change (m' ++ String "-" (String c s))%string with (m' ++ ("-" ++ String c s))%string in P.
      rewrite <- append_assoc in P. rewrite (ends_digits _ c s D) in P. discriminate. }
  assert (G : n = n' /\ f = f').
  { unfold species_text in E. destruct (N.eqb_spec f 0) as [->|Hf], (N.eqb_spec f' 0) as [->|Hf']; cbn [append] in E.
    - rewrite !append_nil in E. auto.
    - rewrite append_nil in E. exfalso. exact (X _ _ _ (S _ _ Hi) E).
    - rewrite append_nil in E. exfalso. exact (X _ _ _ (S _ _ Hj) (eq_sym E)).
    - apply split_last in E; [|now apply show_lacks|now apply show_lacks].
      destruct E as [-> E]. apply show_inj in E. auto. }
  destruct G as [-> ->]. split; [|reflexivity]. exact (distinct_ok _ _ _ _ species_distinct Hi Hj).
Qed.

(** name (number) *)
Lemma bracketed_inj a b r r' : lacks "(" a = true -> lacks "(" b = true ->
  (a ++ " (" ++ r ++ ")")%string = (b ++ " (" ++ r' ++ ")")%string -> a = b /\ r = r'.
Proof.
  intros A B E.
  assert (R : forall x y : string, (x ++ " (" ++ y)%string = ((x ++ " ") ++ String "(" y)%string)
    by (intros; now rewrite append_assoc).
  rewrite !R in E. apply split_first in E.
  - destruct E as [E1 E2]. apply append_inj_l in E1. apply append_inj_l in E2. auto.
  - now rewrite lacks_app, A.
  - now rewrite lacks_app, B.
Qed.

Definition headings : list string :=
  ["Advance"; "Species"; "Level"; "PID"; "Nature"; "Ability"; "IVs"; "Stats"; "HP"; "Gender"].

Lemma csv_total float m st :
  g_pid st < 2^32 -> g_species st < 1011 -> g_nature st < 25 -> g_ability_index st < 299 ->
  length (g_ivs st) = 6%nat -> length (g_stats st) = 6%nat -> g_hidden_power st < 17 -> g_gender st < 3 ->
  exists rows, csv float m st = Ok rows /\ map fst rows = headings.
Proof.
  intros H1 H2 H3 H4 H5 H6 H7 H8. unfold csv.
  destruct (look_ok SPECIES_EN (g_species st) H2) as (a & -> & _). cbn [rbind].
  destruct (hex_32_ok m _ H1) as (b & -> & _). cbn [rbind].
  destruct (look_ok NATURES_EN (g_nature st) H3) as (c & -> & _). cbn [rbind].
  destruct (look_ok ABILITIES_EN (g_ability_index st) H4) as (d & -> & _). cbn [rbind].
  destruct (six_ok _ H5) as (e & ->). cbn [rbind].
  destruct (six_ok _ H6) as (f & ->). cbn [rbind].
  destruct (look_ok TYPES_EN (g_hidden_power st + 1)) as (g & -> & _); [change (N.of_nat (length TYPES_EN)) with 18; lia|]. cbn [rbind].
  destruct (look_ok GENDER_SYMBOLS (g_gender st) H8) as (h & -> & _). cbn [rbind].
  eexists. split; reflexivity.
Qed.

Lemma cons_inj {A} (x y : A) l l' : x :: l = y :: l' -> x = y /\ l = l'.
Proof. intros H. injection H. auto. Qed.
Lemma ok_inj {A} (x y : A) : Ok x = Ok y -> x = y.
Proof. congruence. Qed.

Lemma csv_faithful float m st st' rows :
  g_pid st < 2^32 -> g_pid st' < 2^32 ->
  csv float m st = Ok rows -> csv float m st' = Ok rows ->
  g_advance st = g_advance st' /\ g_species st = g_species st' /\ g_form st = g_form st' /\
  g_level st = g_level st' /\ g_pid st = g_pid st' /\ g_nature st = g_nature st' /\
  g_ability st = g_ability st' /\ look ABILITIES_EN (g_ability_index st) = look ABILITIES_EN (g_ability_index st') /\
  firstn 6 (g_ivs st) = firstn 6 (g_ivs st') /\ firstn 6 (g_stats st) = firstn 6 (g_stats st') /\
  g_hidden_power st = g_hidden_power st' /\
  show_attr float (g_hidden_power_strength st) = show_attr float (g_hidden_power_strength st') /\
  g_gender st = g_gender st'.
Proof.
  intros P P' H H'. unfold csv in H, H'.
  apply rbind_ok in H. destruct H as (sp & A1 & H). apply rbind_ok in H. destruct H as (pid & A2 & H).
  apply rbind_ok in H. destruct H as (na & A3 & H). apply rbind_ok in H. destruct H as (ab & A4 & H).
  apply rbind_ok in H. destruct H as (iv & A5 & H). apply rbind_ok in H. destruct H as (sta & A6 & H).
  apply rbind_ok in H. destruct H as (ty & A7 & H). apply rbind_ok in H. destruct H as (ge & A8 & H).
  apply rbind_ok in H'. destruct H' as (sp' & B1 & H'). apply rbind_ok in H'. destruct H' as (pid' & B2 & H').
  apply rbind_ok in H'. destruct H' as (na' & B3 & H'). apply rbind_ok in H'. destruct H' as (ab' & B4 & H').
  apply rbind_ok in H'. destruct H' as (iv' & B5 & H'). apply rbind_ok in H'. destruct H' as (sta' & B6 & H').
  apply rbind_ok in H'. destruct H' as (ty' & B7 & H'). apply rbind_ok in H'. destruct H' as (ge' & B8 & H').
  apply ok_inj in H. apply ok_inj in H'. rewrite <- H' in H. clear H'.
  assert (C1 : clean "(" ABILITIES_EN = true) by (vm_compute; reflexivity).
  assert (C2 : clean "(" TYPES_EN = true) by (vm_compute; reflexivity).
  apply cons_inj in H. destruct H as [R1 H]. apply (f_equal snd) in R1. cbn [snd] in R1. apply show_inj in R1.
  apply cons_inj in H. destruct H as [R2 H]. apply (f_equal snd) in R2. cbn [snd] in R2.
  apply (species_text_inj _ _ _ _ _ _ A1 B1) in R2. destruct R2 as [R2 R2'].
  apply cons_inj in H. destruct H as [R3 H]. apply (f_equal snd) in R3. cbn [snd] in R3. apply show_inj in R3.
  apply cons_inj in H. destruct H as [R4 H]. apply (f_equal snd) in R4. cbn [snd] in R4.
  apply cons_inj in H. destruct H as [R5 H]. apply (f_equal snd) in R5. cbn [snd] in R5.
  apply cons_inj in H. destruct H as [R6 H]. apply (f_equal snd) in R6. cbn [snd] in R6.
  apply bracketed_inj in R6; [|exact (clean_look _ _ _ _ C1 A4)|exact (clean_look _ _ _ _ C1 B4)].
  destruct R6 as [R6 R6']. apply show_inj in R6'.
  apply cons_inj in H. destruct H as [R7 H]. apply (f_equal snd) in R7. cbn [snd] in R7.
  apply cons_inj in H. destruct H as [R8 H]. apply (f_equal snd) in R8. cbn [snd] in R8.
  apply cons_inj in H. destruct H as [R9 H]. apply (f_equal snd) in R9. cbn [snd] in R9.
  apply bracketed_inj in R9; [|exact (clean_look _ _ _ _ C2 A7)|exact (clean_look _ _ _ _ C2 B7)].
  destruct R9 as [R9 R9'].
  apply cons_inj in H. destruct H as [R10 _]. apply (f_equal snd) in R10. cbn [snd] in R10.
  subst pid' na' ab' iv' sta' ty' ge'.
  repeat split; try assumption.
  - apply (hex_32_inj m); try assumption. congruence.
  - exact (distinct_ok _ _ _ _ natures_distinct A3 B3).
  - congruence.
  - exact (six_inj _ _ _ A5 B5).
  - exact (six_inj _ _ _ A6 B6).
  - pose proof (distinct_ok _ _ _ _ types_distinct A7 B7). lia.
  - exact (distinct_ok _ _ _ _ genders_distinct A8 B8).
Qed.

(** ** One line of text *)
Lemma join_cons r rows : join_rows (r :: rows) = (fst r ++ ": " ++ snd r ++ ", " ++ join_rows rows)%string.
Proof.
  unfold join_rows. cbn [fold_left].
  assert (G : forall l acc, fold_left (fun acc r => (acc ++ fst r ++ ": " ++ snd r ++ ", ")%string) l acc =
     (acc ++ fold_left (fun acc r => (acc ++ fst r ++ ": " ++ snd r ++ ", ")%string) l "")%string).
  { induction l as [|x l IH]; intros acc; cbn [fold_left]; [now rewrite append_nil|].
    rewrite IH, (IH ("" ++ _)%string), append_assoc. reflexivity. }
  rewrite G. rewrite !append_assoc. reflexivity.
Qed.
Lemma join_ends r rows : exists s, join_rows (r :: rows) = (s ++ ", ")%string.
Proof.
  revert r. induction rows as [|x rows IH]; intros r; rewrite join_cons.
  - exists (fst r ++ ": " ++ snd r)%string. change (join_rows []) with "". rewrite !append_assoc. reflexivity.
  - destruct (IH x) as [s ->]. exists (fst r ++ ": " ++ snd r ++ ", " ++ s)%string. rewrite !append_assoc. reflexivity.
Qed.
Lemma substring_prefix s t : substring 0 (String.length s) (s ++ t) = s.
Proof. induction s as [|x s IH]; [destruct t; reflexivity|]. cbn. now rewrite IH. Qed.
Lemma cut_ends s : substring 0 (String.length (s ++ ", ") - 2) (s ++ ", ") = s.
Proof. rewrite length_append. cbn. rewrite Nat.add_sub. apply substring_prefix. Qed.
(** Rows with the same headings, no comma in any value. *)
Lemma join_inj rows : forall rows', map fst rows = map fst rows' ->
  Forall (fun r => lacks "," (snd r) = true) rows -> Forall (fun r => lacks "," (snd r) = true) rows' ->
  join_rows rows = join_rows rows' -> rows = rows'.
Proof.
  induction rows as [|[h v] rows IH]; intros [|[h' v'] rows'] M F F' E; try discriminate M; [reflexivity|].
  cbn [map fst] in M. injection M as -> M. inversion F; subst. inversion F'; subst. cbn [snd] in *.
  rewrite !join_cons in E. cbn [fst snd] in E. apply append_inj_r in E. apply append_inj_r in E.
  cbn [append] in E. apply split_first in E; try assumption. destruct E as [-> E]. injection E as E.
  f_equal. now apply IH.
Qed.

Lemma csv_headings float m st rows : csv float m st = Ok rows -> map fst rows = headings.
Proof. intros H. unfold csv in H. do 8 open H. apply ok_inj in H. subst rows. reflexivity. Qed.
Lemma hex_lacks m n s : n < 2^32 -> hex_32 m n = Ok s -> lacks "," s = true.
Proof.
  intros Hn H. unfold hex_32 in H. cbv zeta in H. do 4 open H. apply ok_inj in H. subst s.
  assert (C : forall i x, match nth_error HEX_LOOKUP (N.to_nat i) with Some s => Ok s | None => Raise IndexError end = Ok x ->
    lacks "," x = true).
  { assert (K : clean "," HEX_LOOKUP = true) by (vm_compute; reflexivity).
    intros i x Hx. exact (clean_look _ _ i x K Hx). }
  rewrite !lacks_app, (C _ _ E), (C _ _ E0), (C _ _ E1), (C _ _ E2). reflexivity.
Qed.
Lemma six_lacks l s : six l = Ok s -> lacks "," s = true.
Proof.
  intros H. apply six_inv in H. destruct H as (a & b & c & d & e & f & r & _ & ->).
  repeat (rewrite lacks_app; cbn [lacks]; try rewrite (show_lacks ",") by reflexivity; try reflexivity).
Qed.
Lemma csv_lacks float m st rows : g_pid st < 2^32 -> lacks "," (show_attr float (g_hidden_power_strength st)) = true ->
  csv float m st = Ok rows -> Forall (fun r => lacks "," (snd r) = true) rows.
Proof.
  intros P S H. unfold csv in H. do 8 open H. apply ok_inj in H. subst rows.
  assert (C1 : clean "," ABILITIES_EN = true) by (vm_compute; reflexivity).
  assert (C2 : clean "," TYPES_EN = true) by (vm_compute; reflexivity).
  assert (C3 : clean "," NATURES_EN = true) by (vm_compute; reflexivity).
  assert (C4 : clean "," SPECIES_EN = true) by (vm_compute; reflexivity).
  assert (C5 : clean "," GENDER_SYMBOLS = true) by (vm_compute; reflexivity).
  assert (Q : forall n, lacks "," (show n) = true) by (intros n; now apply show_lacks).
  repeat constructor; cbn [snd]; try apply Q.
  - rewrite lacks_app, (clean_look _ _ _ _ C4 E). destruct (g_form st =? 0); [reflexivity|].
    cbn [append lacks andb]. cbn. apply Q.
  - exact (hex_lacks _ _ _ P E0).
  - exact (clean_look _ _ _ _ C3 E1).
  - rewrite !lacks_app, (clean_look _ _ _ _ C1 E2), Q. reflexivity.
  - exact (six_lacks _ _ E3).
  - exact (six_lacks _ _ E4).
  - rewrite !lacks_app, (clean_look _ _ _ _ C2 E5), S. reflexivity.
  - exact (clean_look _ _ _ _ C5 E6).
Qed.

Lemma str_faithful float m st st' s : g_pid st < 2^32 -> g_pid st' < 2^32 ->
  lacks "," (show_attr float (g_hidden_power_strength st)) = true ->
  lacks "," (show_attr float (g_hidden_power_strength st')) = true ->
  str float m st = Ok s -> str float m st' = Ok s -> csv float m st = csv float m st'.
Proof.
  intros P P' L L' H H'. unfold str in H, H'.
  destruct (csv float m st) as [rows|] eqn:E; [|discriminate]. destruct (csv float m st') as [rows'|] eqn:E'; [|discriminate].
  cbn [rmap] in H, H'. cbv zeta in H, H'. f_equal.
  pose proof (csv_headings _ _ _ _ E) as M. pose proof (csv_headings _ _ _ _ E') as M'.
  apply join_inj; [congruence|exact (csv_lacks _ _ _ _ P L E)|exact (csv_lacks _ _ _ _ P' L' E')|].
  destruct rows as [|r rows]; [discriminate|]. destruct rows' as [|r' rows']; [discriminate|].
  destruct (join_ends r rows) as [t T]. destruct (join_ends r' rows') as [t' T'].
  rewrite T, cut_ends in H. rewrite T', cut_ends in H'. rewrite T, T'. congruence.
Qed.

(** ** Generated states *)
Definition names_abilities (t : list personal3) : Prop :=
  Forall (fun i => pi_ability_1 i < 299 /\ pi_ability_2 i < 299) t.

Lemma iv_bits_lt ivs b : iv_bits ivs b <= 63.
Proof.
  unfold iv_bits, bit.
  assert (B : forall c : bool, N.b2n c <= 1) by (intros []; cbn; lia).
  pose proof (B (N.testbit (iv_in_game_order ivs 0) b)). pose proof (B (N.testbit (iv_in_game_order ivs 1) b)).
  pose proof (B (N.testbit (iv_in_game_order ivs 2) b)). pose proof (B (N.testbit (iv_in_game_order ivs 3) b)).
  pose proof (B (N.testbit (iv_in_game_order ivs 4) b)). pose proof (B (N.testbit (iv_in_game_order ivs 5) b)).
  lia.
Qed.
Lemma hidden_power_lt ivs : hidden_power_type ivs < 17.
Proof.
  unfold hidden_power_type. pose proof (iv_bits_lt ivs 0). apply N.div_lt_upper_bound; lia.
Qed.
Lemma gender_lt g : gender_code g < 3.
Proof. now destruct g. Qed.

Lemma generated_text float fuel junk g seed delay initial max area l :
  length junk = 6%nat -> setting_ok g area ->
  (length (w_table g) <= 1011)%nat -> names_abilities (w_table g) ->
  seed < 2^32 -> initial + delay < 2^32 -> initial + max <= 2^32 ->
  wild_generate fuel junk g seed delay initial max area = Ok l ->
  Forall (fun st => exists rows line, csv float Numba st = Ok rows /\ map fst rows = headings /\
                                      str float Numba st = Ok line) l.
Proof.
  intros Hj Hset Ht Ha Hs Hd Hm H. apply Forall_forall. intros st Hin.
  pose proof (generate_coherent _ _ _ _ _ _ _ _ _ Hj Hset Hs Hd Hm H) as C.
  rewrite Forall_forall in C. destruct (C st Hin) as (sl & info & _ & C2 & _ & _ & C5 & C6 & _ & C8 & C9 & _ & _ & C12 & _ & _ & C15 & _).
  assert (Hst : length (g_stats st) = 6%nat).
  { apply In_nth_error in Hin. destruct Hin as (i & Hi). rewrite <- (Nat2N.id i) in Hi.
    destruct (generate_states _ _ _ _ _ _ _ _ _ Hj Hset Hs Hd Hm H (N.of_nat i) st Hi)
      as (mods & d & _ & _ & _ & _ & ->). reflexivity. }
  destruct (csv_total float Numba st) as (rows & R & M).
  - exact C5.
  - assert (Q : nth_error (w_table g) (N.to_nat (g_species st)) <> None) by (rewrite C2; discriminate).
    apply nth_error_Some in Q. lia.
  - rewrite C6. apply N.mod_lt. discriminate.
  - unfold names_abilities in Ha. rewrite Forall_forall in Ha.
    destruct (Ha info (nth_error_In _ _ C2)). rewrite C8. destruct (g_ability st =? 0); assumption.
  - exact C12.
  - exact Hst.
  - rewrite C15. apply hidden_power_lt.
  - rewrite C9. apply gender_lt.
  - exists rows. unfold str. rewrite R. cbn [rmap]. eexists. split; [reflexivity|]. split; [exact M|reflexivity].
Qed.

(** ** One line shows the state *)
Lemma line_faithful float m st st' s n n' :
  g_pid st < 2^32 -> g_pid st' < 2^32 ->
  length (g_ivs st) = 6%nat -> length (g_ivs st') = 6%nat ->
  length (g_stats st) = 6%nat -> length (g_stats st') = 6%nat ->
  g_hidden_power_strength st = AInt n -> g_hidden_power_strength st' = AInt n' ->
  str float m st = Ok s -> str float m st' = Ok s ->
  g_advance st = g_advance st' /\ g_species st = g_species st' /\ g_form st = g_form st' /\
  g_level st = g_level st' /\ g_pid st = g_pid st' /\ g_nature st = g_nature st' /\
  g_ability st = g_ability st' /\
  nth_error ABILITIES_EN (N.to_nat (g_ability_index st)) = nth_error ABILITIES_EN (N.to_nat (g_ability_index st')) /\
  g_ivs st = g_ivs st' /\ g_stats st = g_stats st' /\ g_hidden_power st = g_hidden_power st' /\
  g_hidden_power_strength st = g_hidden_power_strength st' /\ g_gender st = g_gender st'.
Proof.
  intros P P' I I' S S' A A' H H'.
  assert (L : lacks "," (show_attr float (g_hidden_power_strength st)) = true)
    by (rewrite A; now apply show_lacks).
  assert (L' : lacks "," (show_attr float (g_hidden_power_strength st')) = true)
    by (rewrite A'; now apply show_lacks).
  pose proof (str_faithful _ _ _ _ _ P P' L L' H H') as E.
  unfold str in H. destruct (csv float m st) as [rows|] eqn:R; [|discriminate]. symmetry in E.
  destruct (csv_faithful _ _ _ _ _ P P' R E) as (E1 & E2 & E3 & E4 & E5 & E6 & E7 & E8 & E9 & E10 & E11 & E12 & E13).
  rewrite !firstn_all2 in E9, E10 by lia. rewrite A, A' in E12. cbn [show_attr] in E12. apply show_inj in E12. subst n'.
  repeat split; try assumption; [|congruence].
  unfold look in E8. destruct (nth_error ABILITIES_EN (N.to_nat (g_ability_index st))), (nth_error ABILITIES_EN (N.to_nat (g_ability_index st')));
    congruence.
Qed.
