(** The readable names of maps (clean_map_string). *)
From Coq Require Import NArith Arith Ascii String List Bool Lia.
From Verif Require Import Base.Word Base.WordLemmas Model.Gen3Area Model.Encounter3 Spec.MapNameSpec.
From Verif Require Import Proofs.Encounter3Proofs.
Import ListNotations.
Ltac Zify.zify_post_hook ::= idtac.
Open Scope list_scope.
Open Scope N_scope.

(** ** Characters *)
Lemma between_iff a b c : char_between a b c = true <-> N_of_ascii a <= N_of_ascii c <= N_of_ascii b.
Proof. unfold char_between. rewrite andb_true_iff, !N.leb_le. tauto. Qed.
Lemma is_digit_iff c : is_digit c = true <-> digit c.
Proof. exact (between_iff "0" "9" c). Qed.
Lemma capital_iff c : char_between "A" "Z" c = true <-> capital c.
Proof. exact (between_iff "A" "Z" c). Qed.
Lemma small_iff c : char_between "a" "z" c = true <-> small c.
Proof. exact (between_iff "a" "z" c). Qed.
Lemma ascii_inj c d : N_of_ascii c = N_of_ascii d -> c = d.
Proof. intros H. rewrite <- (ascii_N_embedding c), <- (ascii_N_embedding d). now rewrite H. Qed.
Lemma lower_iff c d : small_of c d <-> d = lower c.
Proof.
  unfold small_of, lower. pose proof (capital_iff c) as H.
  destruct (char_between "A" "Z" c).
  - assert (Hc : capital c) by tauto. pose proof Hc as Hb. unfold capital in Hb. split.
    + intros [[_ E]|[E _]]; [|tauto]. apply ascii_inj. rewrite N_ascii_embedding; lia.
    + intros ->. left. split; [exact Hc|]. rewrite N_ascii_embedding; lia.
  - assert (Hc : ~ capital c) by (intros X; apply H in X; discriminate). tauto.
Qed.
Lemma upper_iff c d : capital_of c d <-> d = upper c.
Proof.
  unfold capital_of, upper. pose proof (small_iff c) as H.
  destruct (char_between "a" "z" c).
  - assert (Hc : small c) by tauto. pose proof Hc as Hb. unfold small in Hb. split.
    + intros [[_ E]|[E _]]; [|tauto]. apply ascii_inj. rewrite N_ascii_embedding; lia.
    + intros ->. left. split; [exact Hc|]. rewrite N_ascii_embedding; lia.
  - assert (Hc : ~ small c) by (intros X; apply H in X; discriminate). tauto.
Qed.
Lemma lower_digit c : is_digit (lower c) = is_digit c.
Proof. destruct c as [[|] [|] [|] [|] [|] [|] [|] [|]]; reflexivity. Qed.
Lemma lower_of_digit c : is_digit c = true -> lower c = c.
Proof. destruct c as [[|] [|] [|] [|] [|] [|] [|] [|]]; (reflexivity || discriminate). Qed.
Lemma lower_small s : forall t, small_text s t <-> t = map_string lower s.
Proof.
  induction s as [|c s IH]; intros t; cbn [map_string].
  - split; [now inversion 1|intros ->; constructor].
  - split.
    + inversion 1 as [|c' d s' t' H1 H2]; subst. apply lower_iff in H1 as ->. apply IH in H2 as ->. reflexivity.
    + intros ->. constructor; [now apply lower_iff|now apply IH].
Qed.
Lemma space_iff c : is_space (if Ascii.eqb c "_" then " " else c)%char = true <-> separator c.
Proof.
  unfold separator. destruct (Ascii.eqb_spec c "_"%char) as [->|H].
  - split; [intros _; now right; right|reflexivity].
  - unfold is_space. rewrite orb_true_iff, !andb_true_iff, !N.leb_le. tauto.
Qed.

(** ** MAP_ *)
Lemma map_prefix_iff s : String.prefix "MAP_" s = true <-> exists r, s = ("MAP_" ++ r)%string.
Proof. apply prefix_app. Qed.
Lemma remove_map_hit r : remove_map 0 ("MAP_" ++ r) = remove_map 0 r.
Proof.
  assert (H : String.prefix "MAP_" ("MAP_" ++ r) = true) by (apply prefix_app; now exists r).
  cbn [append] in *. unfold remove_map at 1; fold remove_map. rewrite H. reflexivity.
Qed.
Lemma remove_map_miss c s : String.prefix "MAP_" (String c s) = false ->
  remove_map 0 (String c s) = String c (remove_map 0 s).
Proof. intros H. unfold remove_map at 1; fold remove_map. now rewrite H. Qed.
Lemma without_fun s t : without_map s t -> t = remove_map 0 s.
Proof.
  induction 1 as [|s t H IH|c s t Hm H IH].
  - reflexivity.
  - now rewrite remove_map_hit.
  - rewrite remove_map_miss; [now rewrite IH|].
    destruct (String.prefix "MAP_" (String c s)) eqn:E; [|reflexivity].
    apply map_prefix_iff in E as [r E]. now apply Hm in E.
Qed.
Lemma without_total : forall n s, (String.length s <= n)%nat -> without_map s (remove_map 0 s).
Proof.
  induction n as [|n IH]; intros s Hn.
  - destruct s; [constructor|cbn in Hn; lia].
  - destruct s as [|c s]; [constructor|].
    destruct (String.prefix "MAP_" (String c s)) eqn:E.
    + apply map_prefix_iff in E as [r E]. rewrite E, remove_map_hit. constructor. apply IH.
      assert (L : String.length (String c s) = String.length ("MAP_" ++ r)) by now rewrite E.
      cbn in L, Hn. lia.
    + rewrite remove_map_miss by exact E. constructor.
      * intros r Er. assert (H : String.prefix "MAP_" (String c s) = true) by (apply map_prefix_iff; now exists r). congruence.
      * apply IH. cbn in Hn. lia.
Qed.
Lemma without_iff s t : without_map s t <-> t = remove_map 0 s.
Proof. split; [apply without_fun|intros ->; now apply (without_total (String.length s))]. Qed.

(** ** Words *)
Lemma app_assoc_s (a b c : string) : ((a ++ b) ++ c = a ++ (b ++ c))%string.
Proof. induction a as [|x a IH]; cbn; [reflexivity|now rewrite IH]. Qed.
Lemma app_nil_s (a : string) : (a ++ "" = a)%string.
Proof. induction a as [|x a IH]; cbn; [reflexivity|now rewrite IH]. Qed.
Definition flush (w : string) : list string := match w with EmptyString => [] | _ => [w] end.
Lemma split_sep c s w : separator c ->
  split (underscores (String c s)) w = flush w ++ split (underscores s) "".
Proof. intros H. apply space_iff in H. cbn [underscores split]. rewrite H. reflexivity. Qed.
Lemma not_sep c : ~ separator c -> is_space (if Ascii.eqb c "_" then " " else c)%char = false /\ Ascii.eqb c "_" = false.
Proof.
  intros H. split.
  - destruct (is_space _) eqn:E; [|reflexivity]. now apply space_iff in E.
  - destruct (Ascii.eqb_spec c "_"%char) as [->|]; [|reflexivity]. exfalso. apply H. now right; right.
Qed.
Lemma split_char c s w : ~ separator c ->
  split (underscores (String c s)) w = split (underscores s) (w ++ String c "").
Proof. intros H. apply not_sep in H as [H1 H2]. cbn [underscores split]. rewrite H1. now rewrite H2. Qed.
Lemma split_word w : forall s acc, every (fun c => ~ separator c) w ->
  split (underscores (w ++ s)) acc = split (underscores s) (acc ++ w).
Proof.
  induction w as [|c w IH]; intros s acc H; cbn [append].
  - now rewrite app_nil_s.
  - cbn in H. destruct H as [H1 H2]. rewrite split_char by exact H1. rewrite IH by exact H2.
    now rewrite app_assoc_s.
Qed.
Lemma words_fun s ws : words s ws -> ws = split (underscores s) "".
Proof.
  induction 1 as [|c s ws H1 H2 IH|w s ws Hw H1 H2 H3 IH].
  - reflexivity.
  - rewrite split_sep by exact H1. exact IH.
  - rewrite split_word by exact H1. change ("" ++ w)%string with w.
    assert (F : flush w = [w]) by (destruct w; [congruence|reflexivity]).
    destruct H2 as [->|H2].
    + rewrite IH. cbn [underscores split]. fold (flush w). rewrite F. reflexivity.
    + destruct s as [|c s]; [destruct H2|]. cbn in H2. rewrite split_sep in * by exact H2.
      rewrite F, IH. reflexivity.
Qed.
Lemma sep_dec c : {separator c} + {~ separator c}.
Proof.
  destruct (is_space (if Ascii.eqb c "_" then " " else c)%char) eqn:E.
  - left. now apply space_iff.
  - right. intros H. apply space_iff in H. congruence.
Qed.
Lemma every_app P a : forall b, every P (a ++ b) <-> every P a /\ every P b.
Proof. induction a as [|c a IH]; intros b; cbn; [tauto|]. rewrite IH. tauto. Qed.
Lemma split_total s : forall w, every (fun c => ~ separator c) w -> words (w ++ s) (split (underscores s) w).
Proof.
  induction s as [|c s IH]; intros w Hw.
  - rewrite app_nil_s. cbn [underscores split]. destruct w as [|x w]; [constructor|].
    replace (String x w) with (String x w ++ "")%string at 1 by apply app_nil_s.
    constructor; [discriminate|exact Hw|now left|constructor].
  - destruct (sep_dec c) as [H|H].
    + rewrite split_sep by exact H. specialize (IH ""%string I). cbn [append] in IH.
      destruct w as [|x w]; [cbn; now constructor|].
      cbn [flush app]. constructor; [discriminate|exact Hw|now right|now constructor].
    + rewrite split_char by exact H. replace (w ++ String c s)%string with ((w ++ String c "") ++ s)%string by now rewrite app_assoc_s.
      apply IH. apply every_app. now split.
Qed.
Lemma words_iff s ws : words s ws <-> ws = split (underscores s) "".
Proof. split; [apply words_fun|intros ->; exact (split_total s ""%string I)]. Qed.
Lemma words_nonempty s ws : words s ws -> Forall (fun w => w <> ""%string) ws.
Proof. induction 1; auto. Qed.

(** ** Numbers *)
Lemma digits_spec s : forall d r, digits s = (d, r) <->
  s = (d ++ r)%string /\ every digit d /\ ~ starts digit r.
Proof.
  induction s as [|c s IH]; intros d r; cbn [digits].
  - split.
    + intros H; injection H as <- <-; cbn; tauto.
    + intros (H & _). destruct d; [|discriminate]. cbn in H. now subst r.
  - pose proof (is_digit_iff c) as Hc. destruct (is_digit c).
    + destruct (digits s) as [d0 r0]. destruct (IH d0 r0) as [IH1 _].
      destruct IH1 as (E1 & E2 & E3); [reflexivity|]. split.
      * intros H; injection H as <- <-. cbn. rewrite <- E1. tauto.
      * intros (H & H1 & H2). destruct d as [|x d].
        -- cbn in H. subst r. exfalso. apply H2. cbn. tauto.
        -- cbn in H. injection H as <- H. cbn in H1.
           assert (E : (d0, r0) = (d, r)) by (apply IH; tauto). injection E as -> ->. reflexivity.
    + split.
      * intros H; injection H as <- <-. cbn. split; [reflexivity|]. split; [exact I|]. intros X. apply Hc in X. discriminate.
      * intros (H & H1 & H2). destruct d as [|x d]; [cbn in H; now subst r|].
        cbn in H. injection H as <- H. cbn in H1. destruct H1 as [H1 _]. apply Hc in H1. discriminate.
Qed.
Lemma map_app_s f a : forall b, map_string f (a ++ b) = (map_string f a ++ map_string f b)%string.
Proof. induction a as [|c a IH]; intros b; cbn; [reflexivity|now rewrite IH]. Qed.
Lemma digits_lower s : digits (map_string lower s) = (fst (digits s), map_string lower (snd (digits s))).
Proof.
  induction s as [|c s IH]; [reflexivity|]. cbn [map_string digits]. rewrite lower_digit.
  destruct (is_digit c) eqn:E; [|reflexivity]. rewrite IH. destruct (digits s) as [d r]. cbn [fst snd].
  now rewrite lower_of_digit.
Qed.
Lemma lower_split p : forall s r, map_string lower s = (p ++ r)%string ->
  exists a b, s = (a ++ b)%string /\ map_string lower a = p /\ map_string lower b = r.
Proof.
  induction p as [|c p IH]; intros s r H.
  - now exists ""%string, s.
  - destruct s as [|x s]; [discriminate|]. cbn in H. injection H as H1 H2.
    apply IH in H2 as (a & b & -> & Ha & Hb). exists (String x a), b. cbn. now rewrite H1, Ha.
Qed.
Lemma length_lower s : String.length (map_string lower s) = String.length s.
Proof. induction s as [|c s IH]; cbn; [reflexivity|now rewrite IH]. Qed.
Lemma app_inj_len a : forall b c d, String.length a = String.length c -> (a ++ b = c ++ d)%string -> a = c /\ b = d.
Proof.
  induction a as [|x a IH]; intros b c d L E; destruct c as [|y c]; try discriminate.
  - now split.
  - cbn in E, L. injection E as -> E. injection L as L. apply IH in E as [-> ->]; [now split|exact L].
Qed.
Lemma numbered_iff name w d : numbered name w = Some d <-> number_after name d w.
Proof.
  unfold numbered, number_after. split.
  - destruct (after_prefix name (map_string lower w)) as [rest|] eqn:E; [|discriminate].
    apply after_prefix_app in E. apply lower_split in E as (a & b & -> & Ha & <-).
    rewrite digits_lower. cbn [fst]. destruct (digits b) as [d0 r0] eqn:D. cbn [fst].
    apply digits_spec in D as (-> & D1 & D2). intros H.
    assert (Hd : d0 = d /\ d <> ""%string) by (destruct d0; [discriminate|]; injection H as <-; now split).
    destruct Hd as [-> Hd]. exists a, r0. split; [reflexivity|]. split; [now apply lower_small|]. now split.
  - intros (a & r & -> & Ha & Hd & D1 & D2). apply lower_small in Ha as ->.
    rewrite map_app_s. assert (E : after_prefix (map_string lower a) (map_string lower a ++ map_string lower (d ++ r)) = Some (map_string lower (d ++ r)))
      by now apply after_prefix_app.
    rewrite E, digits_lower. assert (D : digits (d ++ r) = (d, r)) by now apply digits_spec.
    rewrite D. cbn [fst]. destruct d; [congruence|reflexivity].
Qed.
Lemma digits_then_iff c w : is_digit c = false -> digits_then c w = true <->
  exists d r, d <> ""%string /\ every digit d /\ w = (d ++ String c r)%string.
Proof.
  intros Hc. unfold digits_then. destruct (digits w) as [d0 r0] eqn:D. pose proof (proj1 (digits_spec _ _ _) D) as (E & E1 & E2).
  split.
  - destruct d0 as [|x d0]; [discriminate|]. destruct r0 as [|y r0]; [discriminate|].
    intros H. apply Ascii.eqb_eq in H as <-. exists (String x d0), r0. split; [discriminate|]. now split.
  - intros (d & r & H & H1 & ->).
    assert (X : digits (d ++ String c r) = (d, String c r)).
    { apply digits_spec. split; [reflexivity|]. split; [exact H1|]. cbn. rewrite <- is_digit_iff. congruence. }
    rewrite X in D. injection D as <- <-. destruct d; [congruence|]. apply Ascii.eqb_refl.
Qed.
Lemma floor_iff w : floor_label w <->
  (match w with String "B" s' => digits_then "F" s' | _ => false end || (digits_then "F" w || digits_then "R" w)) = true.
Proof.
  unfold floor_label. split.
  - intros (d & r & H & H1 & [->|[->| ->]]).
    + apply orb_true_iff. left. cbn [append]. apply digits_then_iff; [reflexivity|]. now exists d, r.
    + apply orb_true_iff. right. apply orb_true_iff. left. apply digits_then_iff; [reflexivity|]. now exists d, r.
    + apply orb_true_iff. right. apply orb_true_iff. right. apply digits_then_iff; [reflexivity|]. now exists d, r.
  - rewrite !orb_true_iff. intros [H|[H|H]].
    + destruct w as [|c w]; [discriminate|].
      assert (Hc : c = "B"%char /\ digits_then "F" w = true).
      { destruct c as [[|] [|] [|] [|] [|] [|] [|] [|]]; (discriminate || now split). }
      destruct Hc as [-> Hc]. apply digits_then_iff in Hc as (d & r & X & X1 & ->); [|reflexivity].
      exists d, r. split; [exact X|]. split; [exact X1|]. now left.
    + apply digits_then_iff in H as (d & r & X & X1 & ->); [|reflexivity].
      exists d, r. split; [exact X|]. split; [exact X1|]. now right; left.
    + apply digits_then_iff in H as (d & r & X & X1 & ->); [|reflexivity].
      exists d, r. split; [exact X|]. split; [exact X1|]. now right; right.
Qed.
Lemma number_starts name d w : number_after (String "r" name) d w ->
  exists s, w = String "r" s \/ w = String "R" s.
Proof.
  intros (a & r & -> & Ha & _). inversion Ha as [|c x s t H1 H2]; subst. cbn [append].
  exists (s ++ d ++ r)%string. apply lower_iff in H1.
  destruct c as [[|] [|] [|] [|] [|] [|] [|] [|]]; (discriminate || (left; reflexivity) || (right; reflexivity)).
Qed.
Lemma floor_starts w : floor_label w -> (exists s, w = String "B" s) \/ starts digit w.
Proof.
  intros (d & r & H & H1 & [->|[->| ->]]); [left; now eexists|right..];
    (destruct d; [congruence|]; cbn in *; tauto).
Qed.
Lemma number_not_floor name d w : number_after (String "r" name) d w -> ~ floor_label w.
Proof.
  intros H X. apply number_starts in H as (s & H). apply floor_starts in X as [[s' X]|X].
  - destruct H; congruence.
  - destruct H as [-> | ->]; cbn in X; unfold digit in X; vm_compute in X; destruct X as [X Y]; now apply Y.
Qed.
Lemma clean_word_floor w : floor_label w -> clean_word w = w.
Proof.
  intros H. unfold clean_word.
  destruct (numbered "route" w) as [d|] eqn:E1; [apply numbered_iff, number_not_floor in E1; tauto|].
  destruct (numbered "room" w) as [d|] eqn:E2; [apply numbered_iff, number_not_floor in E2; tauto|].
  apply floor_iff in H. destruct (match w with String "B" s' => digits_then "F" s' | _ => false end); [reflexivity|].
  cbn [orb] in H. destruct (digits_then "F" w); [reflexivity|]. cbn [orb] in H. now rewrite H.
Qed.
Lemma readable_iff w r : w <> ""%string -> readable w r <-> r = clean_word w.
Proof.
  intros Hw. split.
  - inversion 1 as [d w' Hn|d w' Hn|w' Hf|c d s t H1 H2 H3 H4 H5]; subst.
    + apply numbered_iff in Hn. unfold clean_word. now rewrite Hn.
    + unfold clean_word. destruct (numbered "route" w) as [d'|] eqn:E1.
      * exfalso. apply numbered_iff in E1, Hn.
        destruct E1 as (a & r1 & -> & Ha & _). unfold numbered in Hn. rewrite map_app_s in Hn.
        apply lower_small in Ha. rewrite <- Ha in Hn. discriminate Hn.
      * apply numbered_iff in Hn. now rewrite Hn.
    + symmetry. now apply clean_word_floor.
    + unfold clean_word. destruct (numbered "route" (String c s)) as [d'|] eqn:E1; [apply numbered_iff in E1; now apply H1 in E1|].
      destruct (numbered "room" (String c s)) as [d'|] eqn:E2; [apply numbered_iff in E2; now apply H2 in E2|].
      pose proof (floor_iff (String c s)) as F.
      destruct (match String c s with String "B" s' => digits_then "F" s' | _ => false end); [tauto|].
      destruct (digits_then "F" (String c s)); [tauto|]. destruct (digits_then "R" (String c s)); [tauto|].
      cbn [capitalize]. apply upper_iff in H4 as ->. now apply lower_small in H5 as ->.
  - intros ->. destruct (numbered "route" w) as [d|] eqn:E1.
    { unfold clean_word. rewrite E1. apply r_route. now apply numbered_iff. }
    destruct (numbered "room" w) as [d|] eqn:E2.
    { unfold clean_word. rewrite E1, E2. apply r_room. now apply numbered_iff. }
    pose proof (floor_iff w) as F.
    destruct (match w with String "B" s' => digits_then "F" s' | _ => false end || (digits_then "F" w || digits_then "R" w)) eqn:E3.
    { rewrite clean_word_floor by tauto. apply r_floor. tauto. }
    unfold clean_word. rewrite E1, E2.
    destruct (match w with String "B" s' => digits_then "F" s' | _ => false end); [discriminate|].
    destruct (digits_then "F" w); [discriminate|]. destruct (digits_then "R" w); [discriminate|].
    destruct w as [|c s]; [congruence|]. cbn [capitalize]. apply r_other.
    + intros n X. apply numbered_iff in X. congruence.
    + intros n X. apply numbered_iff in X. congruence.
    + intros X. apply F in X. discriminate.
    + now apply upper_iff.
    + now apply lower_small.
Qed.

Lemma map_name_iff id name : map_name id name <-> name = clean_map_string id.
Proof.
  unfold map_name, clean_map_string. split.
  - intros (t & ws & rs & H1 & H2 & H3 & ->). pose proof (words_nonempty _ _ H2) as Hn.
    apply without_iff in H1 as ->. apply words_iff in H2 as ->. f_equal.
    revert Hn. induction H3 as [|w r ws rs Hr _ IH]; intros Hn; [reflexivity|].
    inversion Hn; subst. cbn [map]. f_equal; [now apply readable_iff|auto].
  - intros ->. exists (remove_map 0 id), (split (underscores (remove_map 0 id)) ""), (map clean_word (split (underscores (remove_map 0 id)) "")).
    split; [now apply without_iff|]. assert (W : words (remove_map 0 id) (split (underscores (remove_map 0 id)) "")) by now apply words_iff.
    split; [exact W|]. split; [|reflexivity]. apply words_nonempty in W.
    induction W as [|w ws Hw _ IH]; cbn [map]; constructor; [now apply readable_iff|exact IH].
Qed.

(** ** Cleaning twice *)
Notation whole := (every (fun c => ~ separator c)).
Lemma lower_lower c : lower (lower c) = lower c.
Proof. destruct c as [[|] [|] [|] [|] [|] [|] [|] [|]]; reflexivity. Qed.
Lemma lower_upper c : lower (upper c) = lower c.
Proof. destruct c as [[|] [|] [|] [|] [|] [|] [|] [|]]; reflexivity. Qed.
Lemma upper_upper c : upper (upper c) = upper c.
Proof. destruct c as [[|] [|] [|] [|] [|] [|] [|] [|]]; reflexivity. Qed.
Lemma upper_of_digit c : is_digit c = true -> upper c = c.
Proof. destruct c as [[|] [|] [|] [|] [|] [|] [|] [|]]; (reflexivity || discriminate). Qed.
Lemma sep_fun c : separator c <-> (is_space c || Ascii.eqb c "_")%bool = true.
Proof.
  rewrite orb_true_iff. unfold separator, is_space. rewrite orb_true_iff, !andb_true_iff, !N.leb_le, Ascii.eqb_eq. tauto.
Qed.
Lemma sep_lower c : separator (lower c) <-> separator c.
Proof. rewrite !sep_fun. destruct c as [[|] [|] [|] [|] [|] [|] [|] [|]]; (reflexivity || cbv; tauto). Qed.
Lemma sep_upper c : separator (upper c) <-> separator c.
Proof. rewrite !sep_fun. destruct c as [[|] [|] [|] [|] [|] [|] [|] [|]]; (reflexivity || cbv; tauto). Qed.
Lemma digit_whole c : digit c -> ~ separator c.
Proof.
  unfold digit, separator. intros H [X|[X|X]]; [lia|lia|]. subst c. vm_compute in H. destruct H as [_ H]. now apply H.
Qed.
Lemma every_impl (P Q : ascii -> Prop) s : (forall c, P c -> Q c) -> every P s -> every Q s.
Proof. intros H. induction s as [|c s IH]; cbn; [auto|]. intros [H1 H2]. split; auto. Qed.
Lemma whole_lower s : whole s -> whole (map_string lower s).
Proof. induction s as [|c s IH]; cbn; [auto|]. rewrite sep_lower. tauto. Qed.
Lemma map_digits (f : ascii -> ascii) d : (forall c, is_digit c = true -> f c = c) -> every digit d -> map_string f d = d.
Proof.
  intros Hf. induction d as [|c d IH]; cbn; [auto|]. intros [H1 H2]. rewrite IH by exact H2. now rewrite Hf by now apply is_digit_iff.
Qed.
Lemma clean_digits d : d <> ""%string -> every digit d -> clean_word d = d.
Proof.
  intros Hd He. symmetry. apply readable_iff; [exact Hd|]. destruct d as [|c d]; [congruence|].
  cbn in He. destruct He as [H1 H2].
  assert (Hc : forall n m, ~ number_after (String "r" n) m (String c d)).
  { intros n m X. apply number_starts in X as (s & [X|X]); injection X as -> _;
      vm_compute in H1; destruct H1 as [_ H1]; now apply H1. }
  apply r_other; [apply Hc|apply Hc| | |].
  - intros (x & r & _ & Hx & [E|[E|E]]).
    + injection E as -> _. vm_compute in H1; destruct H1 as [_ H1]; now apply H1.
    + assert (A : every digit (String c d)) by now split. rewrite E in A. apply every_app in A as [_ A].
      destruct A as [A _]. vm_compute in A. destruct A as [_ A]. now apply A.
    + assert (A : every digit (String c d)) by now split. rewrite E in A. apply every_app in A as [_ A].
      destruct A as [A _]. vm_compute in A. destruct A as [_ A]. now apply A.
  - apply upper_iff. symmetry. apply upper_of_digit. now apply is_digit_iff.
  - apply lower_small. symmetry. apply map_digits; [apply lower_of_digit|exact H2].
Qed.
Definition not_capital c := ~ capital c.
Lemma lower_not_capital s : every not_capital (map_string lower s).
Proof.
  induction s as [|c s IH]; cbn; [exact I|]. split; [|exact IH]. unfold not_capital. rewrite <- capital_iff.
  destruct c as [[|] [|] [|] [|] [|] [|] [|] [|]]; discriminate.
Qed.
Lemma floor_tail c s : floor_label (String c s) -> ~ every not_capital s.
Proof.
  intros (d & r & Hd & _ & E) X.
  assert (Y : exists a b x, s = (a ++ String x b)%string /\ capital x).
  { destruct E as [E|[E|E]].
    - injection E as -> ->. exists d, r, "F"%char. split; [reflexivity|]. now apply capital_iff.
    - destruct d as [|y d]; [congruence|]. injection E as -> ->. exists d, r, "F"%char. split; [reflexivity|]. now apply capital_iff.
    - destruct d as [|y d]; [congruence|]. injection E as -> ->. exists d, r, "R"%char. split; [reflexivity|]. now apply capital_iff. }
  destruct Y as (a & b & x & -> & Y). apply every_app in X as [_ [X _]]. now apply X.
Qed.
Lemma numbered_lower n w v : map_string lower w = map_string lower v -> numbered n w = numbered n v.
Proof. unfold numbered. now intros ->. Qed.
Lemma map_twice s : map_string lower (map_string lower s) = map_string lower s.
Proof. induction s as [|c s IH]; cbn; [reflexivity|]. now rewrite IH, lower_lower. Qed.
Lemma clean_capitalized c s : numbered "route" (String c s) = None -> numbered "room" (String c s) = None ->
  clean_word (capitalize (String c s)) = capitalize (String c s).
Proof.
  intros H1 H2. cbn [capitalize].
  assert (E : map_string lower (String (upper c) (map_string lower s)) = map_string lower (String c s))
    by (cbn; now rewrite map_twice, lower_upper).
  symmetry. apply readable_iff; [discriminate|]. apply r_other.
  - intros n X. apply numbered_iff in X. rewrite (numbered_lower _ _ _ E) in X. congruence.
  - intros n X. apply numbered_iff in X. rewrite (numbered_lower _ _ _ E) in X. congruence.
  - intros X. apply floor_tail in X. apply X. apply lower_not_capital.
  - apply upper_iff. now rewrite upper_upper.
  - apply lower_small. now rewrite map_twice.
Qed.

Definition stable (ps : list string) : Prop :=
  Forall (fun p => p <> ""%string /\ whole p /\ clean_word p = p) ps.
Lemma two_words a d : a <> ""%string -> whole a -> clean_word a = a -> d <> ""%string -> every digit d -> stable [a; d].
Proof.
  intros H1 H2 H3 H4 H5. repeat constructor; auto.
  - eapply every_impl; [|exact H5]. intros c. apply digit_whole.
  - now apply clean_digits.
Qed.
Lemma word_parts w : w <> ""%string -> whole w ->
  exists p ps, stable (p :: ps) /\ String.concat " " (p :: ps) = clean_word w.
Proof.
  intros Hw Hs. unfold clean_word.
  destruct (numbered "route" w) as [d|] eqn:E1.
  { apply numbered_iff in E1 as (a & r & -> & _ & Hd & Hd' & _). exists "Route"%string, [d].
    split; [|reflexivity]. apply two_words; [discriminate| |reflexivity|exact Hd|exact Hd'].
    cbn. rewrite !sep_fun. cbv. intuition discriminate. }
  destruct (numbered "room" w) as [d|] eqn:E2.
  { apply numbered_iff in E2 as (a & r & -> & _ & Hd & Hd' & _). exists "Room"%string, [d].
    split; [|reflexivity]. apply two_words; [discriminate| |reflexivity|exact Hd|exact Hd'].
    cbn. rewrite !sep_fun. cbv. intuition discriminate. }
  pose proof (floor_iff w) as F.
  destruct (match w with String "B" s' => digits_then "F" s' | _ => false end || (digits_then "F" w || digits_then "R" w)) eqn:E3.
  - exists w, []. split.
    + constructor; [|constructor]. split; [exact Hw|]. split; [exact Hs|]. apply clean_word_floor. tauto.
    + cbn [String.concat]. rewrite !orb_true_iff in E3.
      destruct (match w with String "B" s' => digits_then "F" s' | _ => false end); [reflexivity|].
      destruct (digits_then "F" w); [reflexivity|]. destruct (digits_then "R" w); [reflexivity|]. intuition discriminate.
  - destruct (match w with String "B" s' => digits_then "F" s' | _ => false end); [discriminate|].
    destruct (digits_then "F" w); [discriminate|]. destruct (digits_then "R" w); [discriminate|].
    destruct w as [|c s]; [congruence|]. exists (capitalize (String c s)), []. split; [|reflexivity].
    constructor; [|constructor]. split; [discriminate|]. split; [|now apply clean_capitalized].
    cbn in Hs |- *. split; [now rewrite sep_upper|now apply whole_lower].
Qed.
Lemma concat_app_s sep a : forall b, a <> [] -> b <> [] ->
  String.concat sep (a ++ b) = (String.concat sep a ++ sep ++ String.concat sep b)%string.
Proof.
  induction a as [|x a IH]; intros b Ha Hb; [congruence|].
  destruct a as [|y a].
  - destruct b; [congruence|]. reflexivity.
  - specialize (IH b ltac:(discriminate) Hb).
    change (String.concat sep ((x :: y :: a) ++ b)) with (x ++ sep ++ String.concat sep ((y :: a) ++ b))%string.
    rewrite IH. change (String.concat sep (x :: y :: a)) with (x ++ sep ++ String.concat sep (y :: a))%string.
    now rewrite !app_assoc_s.
Qed.
Lemma words_parts ws : Forall (fun w => w <> ""%string /\ whole w) ws ->
  exists ps, stable ps /\ (ws <> [] -> ps <> []) /\ String.concat " " ps = String.concat " " (map clean_word ws).
Proof.
  induction 1 as [|w ws [H1 H2] _ IH].
  - exists []. repeat split; [constructor|congruence].
  - destruct IH as (ps & S & N & E). destruct (word_parts w H1 H2) as (q & qs & S' & E').
    exists ((q :: qs) ++ ps). split; [apply Forall_app; now split|]. split; [discriminate|].
    destruct ws as [|v ws].
    + cbn [map] in E |- *. assert (ps = []) as ->.
      { destruct ps as [|p ps]; [reflexivity|]. inversion S as [|x l (X & _) _]; subst.
        destruct p as [|c p]; [congruence|]. destruct ps; discriminate E. }
      rewrite app_nil_r, E'. reflexivity.
    + rewrite concat_app_s by (discriminate || (apply N; discriminate)). rewrite E, E'. reflexivity.
Qed.
Lemma words_whole s ws : words s ws -> Forall (fun w => w <> ""%string /\ whole w) ws.
Proof. induction 1; auto. Qed.
Lemma concat_words ps : stable ps -> words (String.concat " " ps) ps.
Proof.
  intros H. induction H as [|p ps (H1 & H2 & _) _ IH]; [constructor|].
  destruct ps as [|q ps].
  - cbn. rewrite <- (app_nil_s p) at 1. constructor; [exact H1|exact H2|now left|constructor].
  - change (String.concat " " (p :: q :: ps)) with (p ++ String " " (String.concat " " (q :: ps)))%string.
    assert (X : separator " ") by (apply sep_fun; reflexivity).
    constructor; [exact H1|exact H2|now right|now constructor].
Qed.
Definition no_underscore (c : ascii) : Prop := c <> "_"%char.
Lemma concat_underscore ps : stable ps -> every no_underscore (String.concat " " ps).
Proof.
  intros H. induction H as [|p ps (H1 & H2 & _) _ IH]; [exact I|].
  assert (X : every no_underscore p).
  { eapply every_impl; [|exact H2]. intros c Hc ->. apply Hc. now right; right. }
  destruct ps as [|q ps]; [exact X|].
  change (String.concat " " (p :: q :: ps)) with (p ++ String " " (String.concat " " (q :: ps)))%string.
  apply every_app. split; [exact X|]. split; [discriminate|exact IH].
Qed.
Lemma remove_map_none s : every no_underscore s -> remove_map 0 s = s.
Proof.
  induction s as [|c s IH]; [reflexivity|]. intros H. pose proof H as [H1 H2].
  rewrite remove_map_miss; [now rewrite IH|]. destruct (String.prefix "MAP_" (String c s)) eqn:E; [|reflexivity].
  apply map_prefix_iff in E as [r E]. rewrite E in H. cbn in H. unfold no_underscore in H. tauto.
Qed.
Lemma clean_twice s : clean_map_string (clean_map_string s) = clean_map_string s.
Proof.
  unfold clean_map_string at 2 3. set (ws := split (underscores (remove_map 0 s)) "").
  assert (W : words (remove_map 0 s) ws) by now apply words_iff.
  destruct (words_parts ws (words_whole _ _ W)) as (ps & S & _ & E). rewrite <- E.
  unfold clean_map_string. rewrite remove_map_none by now apply concat_underscore.
  pose proof (concat_words ps S) as P. apply words_iff in P. rewrite <- P.
  f_equal. clear - S. induction S as [|p ps (_ & _ & H) _ IH]; [reflexivity|]. cbn [map]. now rewrite H, IH.
Qed.
