(** How many seeds give six IVs of 31. *)
From Coq Require Import NArith ZArith List Bool Lia.
From Verif Require Import Base.Word Base.WordLemmas Model.Gen3State Model.Gen3Area Model.Gen3Wild
  Spec.LcrngSpec Spec.Gen3Spec Spec.Gen3WildSpec Spec.SpreadSpec Spec.CountSpec Spec.WildRateSpec Spec.SisterSpec Spec.PlaceSpec Spec.PerfectSpec
  Proofs.Count Proofs.WildRate Proofs.Gen3AreaProofs Proofs.Gen3Pid Proofs.LcrngRecover Proofs.Gen3Recover Proofs.Gen3Props Proofs.SpreadProofs
  Proofs.PlaceProofs Proofs.PerfectProofs.
Import ListNotations.
Open Scope list_scope.
Open Scope N_scope.
Ltac Zify.zify_post_hook ::= idtac.

(** ** Counting a list *)
Lemma count_list (l : list N) n : NoDup l -> (forall x, In x l -> x < n) -> how_many (fun i => existsb (N.eqb i) l) n = N.of_nat (length l).
Proof.
  induction l as [|a l IH]; intros D B; [apply how_many_none; reflexivity|].
  inversion D as [|? ? Na Dl]; subst.
  rewrite (how_many_split _ (fun i => i =? a)).
  rewrite (how_many_ext _ (fun i => i =? a)) by (intros i _; cbn [existsb]; destruct (i =? a); [reflexivity|apply andb_false_r]).
  rewrite (how_many_ext (fun i => existsb (N.eqb i) (a :: l) && negb (i =? a)) (fun i => existsb (N.eqb i) l)).
  - rewrite how_many_one by (apply B; now left). rewrite IH; [cbn [length]; lia|exact Dl|intros x Hx; apply B; now right].
  - intros i _. cbn [existsb]. destruct (N.eqb_spec i a) as [-> |]; cbn; [|apply andb_true_r].
    symmetry. apply not_true_is_false. intros H. apply existsb_exists in H. destruct H as (x & I & E). apply N.eqb_eq in E. subst x. contradiction.
Qed.

Lemma poke_back s : s < 2^32 -> steps 1 (back s) = s.
Proof.
  intros H. change (2^32) with 4294967296 in H. change (steps 1 (back s)) with (lcg 32 0x41C64E6D 0x6073 (back s)).
  unfold back, lcg. change (2^32) with 4294967296.
  rewrite <- N.add_mod_idemp_l, N.mul_mod_idemp_r, N.add_mod_idemp_l by discriminate.
  replace (0x41C64E6D * (0xEEB9EB65 * s + 0xA3561A1) + 0x6073) with (s + (1029054899 * s + 44004916) * 4294967296) by ring.
  rewrite N.mod_add by discriminate. apply N.mod_small, H.
Qed.
Lemma back_lt s : back s < 2^32.
Proof. unfold back. change (2^32) with 4294967296. apply N.mod_lt. discriminate. Qed.
Lemma steps_back2 s : s < 2^32 -> steps 2 (backs 2 s) = s.
Proof.
  intros H. change (backs 2 s) with (back (back s)). change (steps 2 (back (back s))) with (steps 1 (steps 1 (back (back s)))).
  rewrite poke_back by apply back_lt. apply poke_back, H.
Qed.

(** ** Everything that leads to a state *)
Definition leads_to (g : wildgen) (n cur t : N) : Prop :=
  exists f k, nature_choice (rand_at t) g 0 = (n, f) /\ cur = steps (f + 2 * k) t /\
    forall j, j < k -> pid_at (rand_at t) (f + 2 * j) mod 25 <> n.
Definition right_before (g : wildgen) (n cur t : N) : Prop := exists f, nature_choice (rand_at t) g 0 = (n, f) /\ cur = steps f t.
Lemma leads_step g n cur t : t < 2^32 -> cur < 2^32 ->
  leads_to g n cur t <-> right_before g n cur t \/ (first_pid (backs 2 cur) mod 25 <> n /\ leads_to g n (backs 2 cur) t).
Proof.
  intros T U. split.
  - intros (f & k & A & B & C). destruct (N.eq_dec k 0) as [-> |K].
    + left. exists f. split; [exact A|]. rewrite B. f_equal. lia.
    + right. assert (E : exists k', k = k' + 1) by (exists (k - 1); lia). destruct E as [k' ->].
      assert (V : steps (f + 2 * k') t = backs 2 cur).
      { apply backs_is; [apply steps_lt, T|]. rewrite <- steps_add, B. f_equal. lia. }
      split.
      * rewrite <- V. unfold first_pid. rewrite !rand_at_steps. exact (C k' ltac:(lia)).
      * exists f, k'. split; [exact A|]. split; [now symmetry|]. intros j Hj. apply C. lia.
  - intros [(f & A & B)|(D & f & k & A & B & C)].
    + exists f, 0. split; [exact A|]. split; [rewrite B; f_equal; lia|]. intros j Hj. lia.
    + exists f, (k + 1). split; [exact A|]. split.
      * assert (V : cur = steps 2 (backs 2 cur)) by (symmetry; apply steps_back2, U). rewrite V, B, <- steps_add. f_equal. lia.
      * intros j Hj. destruct (N.eq_dec j k) as [-> |Nj]; [|apply C; lia].
        intros E. apply D. rewrite B. unfold first_pid. rewrite !rand_at_steps. exact E.
Qed.

Lemma some_eq {A} (x y : A) : Some x = Some y -> x = y.
Proof. now intros [= ->]. Qed.
(** The same by walking back: the states from which the nature is drawn without Synchronize, drawn after Synchronize failed, and
    given by Synchronize. *)
Definition ways : Set := (list N * list N * list N)%type.
Definition join (a b : ways) : ways := let '(x, y, z) := a in let '(x', y', z') := b in (x ++ x', y ++ y', z ++ z').
Definition here (n cur : N) : ways :=
  let t := back cur in
  let right := cur / 65536 mod 25 =? n in
  (if right then [t] else [],
   if right then if t / 65536 mod 2 =? 0 then [] else [back t] else [],
   if cur / 65536 mod 2 =? 0 then [t] else []).
Fixpoint walk (K : nat) (n cur : N) : option ways :=
  match K with
  | O => None
  | S K => let cur' := back (back cur) in
           if first_pid cur' mod 25 =? n then Some (here n cur) else option_map (join (here n cur)) (walk K n cur')
  end.
Definition ways_of (lead n : N) (w : ways) : list N :=
  let '(plain, failed, sync) := w in
  if lead <=? Lead_SYNCHRONIZE_QUIRKY then (if lead =? n then sync else []) ++ failed else plain.
Lemma in_join lead n a b t : In t (ways_of lead n (join a b)) <-> In t (ways_of lead n a) \/ In t (ways_of lead n b).
Proof.
  destruct a as [[x y] z], b as [[x' y'] z']. cbn [join ways_of]. destruct (lead <=? _); [destruct (lead =? n)|]; rewrite ?in_app_iff; cbn [In]; tauto.
Qed.
Lemma next_rand t : rand_at t 1 = steps 1 t / 65536.
Proof. reflexivity. Qed.
Lemma here_ok g n cur t : t < 2^32 -> cur < 2^32 -> In t (ways_of (w_lead g) n (here n cur)) <-> right_before g n cur t.
Proof.
  intros T U. unfold here, ways_of, right_before, nature_choice. change (0 + 1) with 1. change (0 + 2) with 2.
  destruct (w_lead g <=? Lead_SYNCHRONIZE_QUIRKY).
  - rewrite in_app_iff. split.
    + intros [H|H].
      * destruct (w_lead g =? n) eqn:C1; [|destruct H]. destruct (_ =? 0) eqn:C2 in H; [|destruct H]. destruct H as [<-|[]].
        exists 1. rewrite next_rand, (poke_back cur U). rewrite C2. apply N.eqb_eq in C1. rewrite C1. auto.
      * destruct (_ =? n) eqn:C2 in H; [|destruct H]. destruct (_ =? 0) eqn:C1 in H; [destruct H|]. destruct H as [<-|[]].
        exists 2. rewrite next_rand, (poke_back (back cur)) by apply back_lt. rewrite C1.
        change (rand_at (back (back cur)) 2) with (steps 2 (backs 2 cur) / 65536). change (steps 2 (back (back cur))) with (steps 2 (backs 2 cur)).
        rewrite (steps_back2 cur U). apply N.eqb_eq in C2. rewrite C2. auto.
    + intros (f & A & B). destruct (rand_at t 1 mod 2 =? 0) eqn:R.
      * injection A as A1 A2. subst f. left. rewrite next_rand, <- B in R. rewrite R, A1, N.eqb_refl. left. rewrite B. apply back_poke, T.
      * injection A as A1 A2. subst f. right.
        assert (E1 : back cur = steps 1 t) by (rewrite B; change (steps 2 t) with (steps 1 (steps 1 t)); apply back_poke, steps_lt, T).
        rewrite E1, <- next_rand, R. change (rand_at t 2) with (steps 2 t / 65536) in A1. rewrite <- B in A1. rewrite A1, N.eqb_refl.
        left. apply back_poke, T.
  - split.
    + destruct (_ =? n) eqn:C; [|intros []]. intros [<-|[]]. exists 1. rewrite next_rand, (poke_back cur U). apply N.eqb_eq in C. rewrite C. auto.
    + intros (f & A & B). injection A as A1 A2. subst f. rewrite next_rand, <- B in A1. rewrite A1, N.eqb_refl. left. rewrite B. apply back_poke, T.
Qed.
Lemma walk_ok g n K : forall cur w, cur < 2^32 -> walk K n cur = Some w ->
  forall t, t < 2^32 -> In t (ways_of (w_lead g) n w) <-> leads_to g n cur t.
Proof.
  induction K as [|K IH]; intros cur w U W t T; [discriminate W|]. cbn [walk] in W.
  rewrite (leads_step g n cur t T U). change (backs 2 cur) with (back (back cur)).
  destruct (N.eqb_spec (first_pid (back (back cur)) mod 25) n) as [E|E].
  - injection W as <-. rewrite (here_ok g n cur t T U). split; [auto|intros [H|[H _]]; [exact H|contradiction]].
  - destruct (walk K n (back (back cur))) as [w'|] eqn:W'; [|discriminate W]. cbn [option_map] in W. apply some_eq in W. subst w.
    rewrite in_join, (here_ok g n cur t T U), (IH _ w' (back_lt _) W' t T). split; intros [H|H]; auto. destruct H as [_ H]. auto.
Qed.

(** All states that lead to one of several. *)
Fixpoint walks (us : list N) : option (list (N * ways)) :=
  match us with
  | [] => Some []
  | u :: us => let n := first_pid u mod 25 in
               match walk 150 n u, walks us with Some w, Some ws => Some ((n, w) :: ws) | _, _ => None end
  end.
Definition all_ways (lead : N) (ws : list (N * ways)) : list N := flat_map (fun nw => ways_of lead (fst nw) (snd nw)) ws.
Lemma all_ways_ok g us : forall ws, (forall u, In u us -> u < 2^32) -> walks us = Some ws ->
  forall t, t < 2^32 -> In t (all_ways (w_lead g) ws) <-> exists u, In u us /\ leads_to g (first_pid u mod 25) u t.
Proof.
  induction us as [|u us IH]; intros ws B E t T; cbn [walks] in E.
  - injection E as <-. split; [intros []|intros (u & [] & _)].
  - cbv zeta in E. destruct (walk 150 _ u) as [w|] eqn:W; [|discriminate E]. destruct (walks us) as [ws'|] eqn:A; [|discriminate E].
    apply some_eq in E. subst ws. unfold all_ways. cbn [flat_map fst snd]. fold (all_ways (w_lead g) ws').
    rewrite in_app_iff, (walk_ok g _ 150 u w (B u (or_introl eq_refl)) W t T), (IH ws' (fun v Hv => B v (or_intror Hv)) eq_refl t T).
    split.
    + intros [H|(v & I & H)]; [exists u|exists v]; (split; [cbn; auto|exact H]).
    + intros (v & [<-|I] & H); [left|right; exists v]; auto.
Qed.
Definition us_of (method : N) : list N :=
  if method =? Method_METHOD_2 then us_2 else if method =? Method_METHOD_4 then us_4 else us_1.
Lemma us_of_ok (g : wildgen) u : u < 2^32 ->
  (In u (us_of (w_method g)) <-> ivs_from (rand_at u (iv1_pos g 2)) (rand_at u (iv2_pos g 2)) = best_ivs).
Proof.
  intros U. unfold us_of. destruct (w_method g =? Method_METHOD_2) eqn:A; [apply N.eqb_eq in A|destruct (w_method g =? Method_METHOD_4) eqn:B; [apply N.eqb_eq in B|]].
  - split; [apply best_2, A|]. destruct (pos_2 g A) as [-> ->]. intros E. apply (only_six 4); [exact us_2_nodup|reflexivity|exact us_2_ok|exact U|exact E].
  - split; [apply best_4, B|]. destruct (pos_4 g B) as [-> ->]. intros E. apply only_four; [exact U|exact E].
  - apply N.eqb_neq in A, B. assert (M : method_1 g) by (split; assumption). split; [apply best_1, M|]. destruct (pos_1 g M) as [-> ->].
    intros E. apply (only_six 3); [exact us_1_nodup|reflexivity|exact us_1_ok|exact U|exact E].
Qed.
Lemma us_of_lt m u : In u (us_of m) -> u < 2^32.
Proof.
  unfold us_of. destruct (_ =? _); [|destruct (_ =? _)]; cbn [us_1 us_2 us_4 In]; intros H;
    repeat (destruct H as [<-|H]; [vm_compute; reflexivity|]); destruct H.
Qed.
Lemma met_best g t : t < 2^32 ->
  (exists pid, met g t pid best_ivs) <-> exists u, In u (us_of (w_method g)) /\ leads_to g (first_pid u mod 25) u t.
Proof.
  intros T. split.
  - intros (pid & H). destruct (met_state _ _ _ _ T H) as (n & f & k & u & A & U0 & U & B & P & D & E).
    exists u. split; [apply us_of_ok; [exact U|now symmetry]|]. rewrite P in D. rewrite D. exists f, k. auto.
  - intros (u & I & f & k & A & B & C). pose proof (us_of_lt _ _ I) as U. apply us_of_ok in I; [|exact U].
    exists (first_pid u). rewrite <- I. exists (first_pid u mod 25), f, k. split; [exact A|]. split; [exact C|].
    split; [rewrite B; unfold pid_at, first_pid; now rewrite !rand_at_steps|]. split; [reflexivity|].
    rewrite B, !rand_at_steps. unfold iv2_pos, iv1_pos. f_equal; f_equal; lia.
Qed.

(** ** The numbers *)
Fixpoint distinct (l : list N) : bool := match l with [] => true | x :: l => negb (existsb (N.eqb x) l) && distinct l end.
Lemma distinct_ok l : distinct l = true -> NoDup l.
Proof.
  induction l as [|x l IH]; intros H; constructor; cbn [distinct] in H; apply andb_true_iff in H; destruct H as [A B].
  - intros I. apply negb_true_iff in A. apply not_true_iff_false in A. apply A, existsb_exists. exists x. split; [exact I|apply N.eqb_refl].
  - exact (IH B).
Qed.
Definition counted (method : N) (leads : list N) : bool :=
  match walks (us_of method) with
  | Some ws => forallb (fun lead => let l := all_ways lead ws in
      distinct l && forallb (fun x => x <? 4294967296) l && (N.of_nat (length l) =? best_seeds method lead)) leads
  | None => false
  end.
Definition some_leads : list N := map N.of_nat (seq 0 26).
Lemma counted_all : forallb (fun m => counted m some_leads) [0; Method_METHOD_2; Method_METHOD_4] = true.
Proof. vm_compute. reflexivity. Qed.
Lemma all_ways_no_sync ws lead lead' : Lead_SYNCHRONIZE_QUIRKY < lead -> Lead_SYNCHRONIZE_QUIRKY < lead' -> all_ways lead ws = all_ways lead' ws.
Proof.
  intros A B. unfold all_ways. apply N.leb_gt in A, B. induction ws as [|[n [[x y] z]] ws IH]; [reflexivity|].
  cbn [flat_map fst snd ways_of]. rewrite IH, A, B. reflexivity.
Qed.
Lemma counted_ok method lead : exists ws, walks (us_of method) = Some ws /\ let l := all_ways lead ws in
  NoDup l /\ (forall x, In x l -> x < 2^32) /\ N.of_nat (length l) = best_seeds method lead.
Proof.
  assert (M : exists m, In m [0; Method_METHOD_2; Method_METHOD_4] /\ us_of method = us_of m /\ forall l, best_seeds method l = best_seeds m l).
  { unfold us_of, best_seeds. destruct (method =? Method_METHOD_2) eqn:A; [exists Method_METHOD_2; split; [cbn; auto|split; reflexivity]|].
    destruct (method =? Method_METHOD_4) eqn:B; [exists Method_METHOD_4; split; [cbn; auto|split; reflexivity]|].
    exists 0. split; [cbn; auto|split; reflexivity]. }
  destruct M as (m & I & E1 & E2). rewrite E1, E2.
  pose proof (proj1 (forallb_forall _ _) counted_all m I) as C. cbv beta in C. unfold counted in C.
  destruct (walks (us_of m)) as [ws|]; [|discriminate C]. exists ws. split; [reflexivity|]. clear E1 E2 I.
  assert (L : exists l, In l some_leads /\ all_ways lead ws = all_ways l ws /\ best_seeds m lead = best_seeds m l).
  { destruct (N.lt_ge_cases Lead_SYNCHRONIZE_QUIRKY lead) as [H|H].
    - exists 25. split; [apply in_map_iff; exists 25%nat; split; [reflexivity|apply in_seq; lia]|].
      split; [apply all_ways_no_sync; [exact H|vm_compute; reflexivity]|]. unfold best_seeds. apply N.ltb_lt in H. now rewrite H.
    - exists lead. split; [|auto]. apply in_map_iff. exists (N.to_nat lead). split; [apply N2Nat.id|]. unfold Lead_SYNCHRONIZE_QUIRKY in H. apply in_seq. lia. }
  destruct L as (l & J & F1 & F2). rewrite F1, F2.
  pose proof (proj1 (forallb_forall _ _) C l J) as K. cbv beta zeta in K |- *. rewrite !andb_true_iff in K. destruct K as [[K1 K2] K3].
  split; [exact (distinct_ok _ K1)|]. split; [|now apply N.eqb_eq].
  intros x Hx. apply N.ltb_lt. exact (proj1 (forallb_forall _ _) K2 x Hx).
Qed.

Lemma best_ivs_eq ivs : length ivs = 6%nat -> has_best_ivs ivs = true <-> ivs = best_ivs.
Proof.
  intros L. split; [|intros ->; reflexivity]. unfold has_best_ivs.
  destruct ivs as [|a [|b [|c [|d [|e [|f [|? ?]]]]]]]; try discriminate L. cbn [forallb]. rewrite !andb_true_iff, !N.eqb_eq.
  intros (<- & <- & <- & <- & <- & <- & _). reflexivity.
Qed.
Lemma best_count fuel junk g area delay initial :
  length junk = 6%nat -> 2^31 <= N.of_nat fuel -> initial + delay < 2^32 -> plain_place g area ->
  how_many (fun seed => one_found (fun st => has_best_ivs (g_ivs st)) (wild_generate fuel junk g seed delay initial 1 area)) (2^32) =
  best_seeds (w_method g) (w_lead g).
Proof.
  intros J F D P. destruct (counted_ok (w_method g) (w_lead g)) as (ws & W & C1 & B & C3). cbv zeta in C1, B, C3. rewrite <- C3. clear C3.
  pose proof (all_ways_ok g _ ws (us_of_lt (w_method g)) W) as AW. revert C1 B AW. generalize (all_ways (w_lead g) ws). intros l C1 B AW.
  set (m := initial + delay + before_nature g area).
  rewrite <- (map_length (backs m) l).
  assert (SB : forall k x, x < 2^32 -> steps k (backs k x) = x /\ backs k x < 2^32).
  { intros k x Hx. destruct (steps_onto k x Hx) as (s & Hs & E). rewrite <- E, backs_steps by exact Hs. split; [reflexivity|exact Hs]. }
  rewrite <- (count_list (map (backs m) l) (2^32)).
  - apply how_many_ext. intros s Hs. destruct (one_met fuel junk g area initial delay J P F D s Hs) as (st & E & Mt). fold m in Mt. rewrite E. cbn [one_found].
    assert (T : steps m s < 2^32) by (apply steps_lt, Hs).
    assert (Q : existsb (N.eqb s) (map (backs m) l) = true <-> In (steps m s) l).
    { rewrite existsb_exists. split.
      - intros (x & I & Ex). apply N.eqb_eq in Ex. subst x. apply in_map_iff in I. destruct I as (y & <- & I). rewrite (proj1 (SB m y (B y I))). exact I.
      - intros I. exists s. split; [|apply N.eqb_refl]. apply in_map_iff. exists (steps m s). split; [apply backs_steps, Hs|exact I]. }
    rewrite (AW _ T), <- (met_best g _ T) in Q.
    assert (Le : length (g_ivs st) = 6%nat) by (destruct Mt as (? & ? & ? & _ & _ & _ & _ & ->); reflexivity).
    apply eq_true_iff_eq. rewrite Q, (best_ivs_eq _ Le). split.
    + intros Eb. exists (g_pid st). rewrite <- Eb. exact Mt.
    + intros (pid & H). exact (proj2 (met_one g g _ _ _ _ _ (or_introl eq_refl) eq_refl Mt H)).
  - clear - C1 B SB. induction l as [|x l IH]; cbn [map]; constructor; inversion C1 as [|? ? Nx Dl]; subst.
    + intros I. apply in_map_iff in I. destruct I as (y & E & I). apply Nx.
      assert (y = x) by (rewrite <- (proj1 (SB m x (B x (or_introl eq_refl)))), <- E; symmetry; apply (SB m y), B; now right). now subst y.
    + apply IH; [exact Dl|]. intros y Hy. apply B. now right.
  - intros x Hx. apply in_map_iff in Hx. destruct Hx as (y & <- & I). apply (SB m y (B y I)).
Qed.
