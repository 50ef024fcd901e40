(** Species constants against their specification. *)
From Coq Require Import NArith Arith Ascii String List Bool Lia.
From Verif Require Import Base.Word Model.TextData Model.Encounter3 Model.EncounterData3 Model.Names Spec.NameSpec Proofs.BundledText3.
Import ListNotations.
Open Scope list_scope.
Open Scope N_scope.

(** No letter of Latin-1 other than é. *)
Fixpoint plain (s : string) : bool :=
  match s with
  | EmptyString => true
  | String c s' =>
      match s' with
      | String d _ => negb ((N_of_ascii c =? 0xC3) && (0xA0 <=? N_of_ascii d) && (N_of_ascii d <=? 0xBE) && negb (N_of_ascii d =? 0xB7))
                      || (N_of_ascii d =? 0xA9)
      | EmptyString => true
      end && plain s'
  end.
Lemma names_plain : forallb plain SPECIES_EN = true.
Proof. vm_cast_no_check (eq_refl true). Qed.

Lemma letters_all c : (exists k, String.get k small_letters = Some c /\ String.get k capital_letters = Some (ascii_of_N (N_of_ascii c - 32)) ) /\
    (97 <=? N_of_ascii c) && (N_of_ascii c <=? 122) = true \/
  (forall k, String.get k small_letters <> Some c) /\ (97 <=? N_of_ascii c) && (N_of_ascii c <=? 122) = false.
Proof.
  assert (A : forall k a, String.get k small_letters = Some a -> (97 <=? N_of_ascii a) && (N_of_ascii a <=? 122) = true).
  { intros k a. do 26 (destruct k as [|k]; [cbn; intros H; injection H as <-; reflexivity|]). destruct k; discriminate. }
  assert (B : (97 <=? N_of_ascii c) && (N_of_ascii c <=? 122) = true ->
    String.get (N.to_nat (N_of_ascii c - 97)) small_letters = Some c /\
    String.get (N.to_nat (N_of_ascii c - 97)) capital_letters = Some (ascii_of_N (N_of_ascii c - 32))).
  { destruct c as [[] [] [] [] [] [] [] []]; try (intros H; vm_compute in H; discriminate H); intros _; now vm_compute. }
  destruct ((97 <=? N_of_ascii c) && (N_of_ascii c <=? 122)) eqn:E.
  - left. split; [|reflexivity]. exists (N.to_nat (N_of_ascii c - 97)). exact (B eq_refl).
  - right. split; [|reflexivity]. intros k H. apply A in H. congruence.
Qed.
Lemma letters_capital k a b : String.get k small_letters = Some a -> String.get k capital_letters = Some b ->
  (97 <=? N_of_ascii a) && (N_of_ascii a <=? 122) = true /\ b = ascii_of_N (N_of_ascii a - 32).
Proof.
  do 26 (destruct k as [|k]; [cbn; intros H H'; injection H as <-; injection H' as <-; now split|]). destruct k; discriminate.
Qed.
Lemma upper_step c s : upper (String c s) =
  if (97 <=? N_of_ascii c) && (N_of_ascii c <=? 122) then String (ascii_of_N (N_of_ascii c - 32)) (upper s)
  else match s with
       | String d t =>
           if (N_of_ascii c =? 0xC3) && (0xA0 <=? N_of_ascii d) && (N_of_ascii d <=? 0xBE) && negb (N_of_ascii d =? 0xB7)
           then String c (String (ascii_of_N (N_of_ascii d - 32)) (upper t))
           else String c (upper s)
       | EmptyString => String c (upper s)
       end.
Proof. reflexivity. Qed.
Lemma e_acute u : append "é" u = String "195" (String "169" u).
Proof. reflexivity. Qed.
Lemma E_acute u : append "É" u = String "195" (String "137" u).
Proof. reflexivity. Qed.
Lemma of_code c n : N_of_ascii c = n -> c = ascii_of_N n.
Proof. intros <-. symmetry. apply ascii_N_embedding. Qed.

Lemma upper_capitals_n n : forall s, (String.length s <= n)%nat -> plain s = true -> capitals s (upper s).
Proof.
  induction n as [|n IH]; intros s L P.
  { destruct s; [constructor|cbn in L; lia]. }
  destruct s as [|c s]; [constructor|]. cbn [String.length] in L. rewrite upper_step.
  destruct (letters_all c) as [[(k & K1 & K2) ->]|[K ->]].
  - apply (capitals_letter k); [exact K1|exact K2|]. apply IH; [lia|]. cbn [plain] in P. now apply andb_prop in P.
  - destruct s as [|d t]; [constructor; [exact K|intros u; rewrite e_acute; discriminate|constructor]|].
    cbn [plain] in P. apply andb_prop in P as [P1 P2].
    destruct ((N_of_ascii c =? 0xC3) && (0xA0 <=? N_of_ascii d) && (N_of_ascii d <=? 0xBE) && negb (N_of_ascii d =? 0xB7)) eqn:E.
    + cbn in P1. apply N.eqb_eq in P1. apply andb_prop in E as [E _]. apply andb_prop in E as [E _]. apply andb_prop in E as [E _].
      apply N.eqb_eq in E. apply of_code in E. apply of_code in P1. subst c d.
      change (capitals (append "é" t) (append "É" (upper t))). constructor. apply IH; [cbn [String.length] in L; lia|].
      cbn [plain] in P2. now apply andb_prop in P2.
    + constructor; [exact K| |apply IH; [lia|exact P2]].
      intros u. rewrite e_acute. intros Q. injection Q as -> -> ->. vm_compute in E. discriminate.
Qed.
Lemma upper_capitals s : plain s = true -> capitals s (upper s).
Proof. now apply (upper_capitals_n (String.length s)). Qed.
Lemma capitals_upper s t : capitals s t -> plain s = true -> t = upper s.
Proof.
  intros C. induction C as [|k a b s t K1 K2 C IH|s t C IH|c s t K U C IH]; intros P; [reflexivity| | |].
  - rewrite upper_step. destruct (letters_capital _ _ _ K1 K2) as [-> ->]. f_equal. apply IH. cbn [plain] in P. now apply andb_prop in P.
  - rewrite e_acute, E_acute in *. rewrite upper_step. rewrite <- IH; [reflexivity|].
    cbn [plain] in P. apply andb_prop in P as [_ P]. cbn [plain] in P. now apply andb_prop in P.
  - rewrite upper_step. cbn [plain] in P. apply andb_prop in P as [P1 P2].
    destruct (letters_all c) as [[(k & K1 & K2) _]|[_ ->]]; [now destruct (K k)|].
    destruct s as [|d s]; [now rewrite IH|].
    destruct ((N_of_ascii c =? 0xC3) && (0xA0 <=? N_of_ascii d) && (N_of_ascii d <=? 0xBE) && negb (N_of_ascii d =? 0xB7)) eqn:E.
    + cbn in P1. apply N.eqb_eq in P1. apply andb_prop in E as [E _]. apply andb_prop in E as [E _]. apply andb_prop in E as [E _].
      apply N.eqb_eq in E. apply of_code in E. apply of_code in P1. subst c d. now destruct (U s).
    + now rewrite IH.
Qed.
Lemma constant_case_of name c : In name SPECIES_EN -> constant_case name = c <-> constant_of name c.
Proof.
  intros H. pose proof names_plain as P. rewrite forallb_forall in P. apply P in H. unfold constant_case, constant_of.
  destruct (String.eqb_spec name "Nidoran♂") as [->|N1].
  { split; [intros <-; now left|]. intros [[_ ->]|[[Q _]|[Q _]]]; [reflexivity|discriminate|now destruct Q]. }
  destruct (String.eqb_spec name "Nidoran♀") as [->|N2].
  { split; [intros <-; now right; left|]. intros [[Q _]|[[_ ->]|[_ [Q _]]]]; [discriminate|reflexivity|now destruct Q]. }
  split.
  - intros <-. right. right. split; [exact N1|]. split; [exact N2|]. exists (upper name). split; [reflexivity|]. now apply upper_capitals.
  - intros [[Q _]|[[Q _]|(_ & _ & rest & -> & C)]]; [contradiction|contradiction|]. now rewrite (capitals_upper _ _ C H).
Qed.
Lemma species_index k c : index CONSTANT_CASE_SPECIES_EN c 0 = Ok (N.of_nat k) <->
  exists name, nth_error SPECIES_EN k = Some name /\ constant_of name c.
Proof.
  rewrite constant_names, names_index. split; intros (name & E & F); exists name; (split; [exact E|]);
    apply (constant_case_of name c (nth_error_In _ _ E)); exact F.
Qed.
Lemma constants_apart name name' c : In name SPECIES_EN -> In name' SPECIES_EN ->
  constant_of name c -> constant_of name' c -> name = name'.
Proof.
  intros H H' C C'. apply (constant_case_of name c H) in C. apply (constant_case_of name' c H') in C'.
  apply constant_case_inj; [exact H|exact H'|]. now rewrite C, C'.
Qed.
