(** PIDs that can come with six IVs of 31. *)
From Coq Require Import NArith ZArith List Bool Lia.
From Verif Require Import Base.Word Base.WordLemmas Model.Gen3State Model.Gen3Area Model.Gen3Wild
  Spec.LcrngSpec Spec.Gen3Spec Spec.Gen3WildSpec Spec.SpreadSpec Spec.WildRateSpec Spec.SisterSpec Spec.PlaceSpec Spec.PerfectSpec
  Proofs.Gen3AreaProofs Proofs.Gen3Pid Proofs.LcrngRecover Proofs.Gen3Recover Proofs.Gen3Props Proofs.SpreadProofs Proofs.PlaceProofs.
Import ListNotations.
Open Scope list_scope.
Open Scope N_scope.
Ltac Zify.zify_post_hook ::= idtac.

(** ** Steps back *)
Definition back (s : N) : N := (0xEEB9EB65 * s + 0xA3561A1) mod 4294967296.
Lemma back_poke s : s < 2^32 -> back (steps 1 s) = s.
Proof.
  intros H. change (2^32) with 4294967296 in H. change (steps 1 s) with (lcg 32 0x41C64E6D 0x6073 s).
  unfold back, lcg. change (2^32) with 4294967296.
  rewrite <- N.add_mod_idemp_l, N.mul_mod_idemp_r, N.add_mod_idemp_l by discriminate.
  replace (0xEEB9EB65 * (0x41C64E6D * s + 0x6073) + 0xA3561A1) with (s + (1029054899 * s + 23025) * 4294967296) by ring.
  rewrite N.mod_add by discriminate. apply N.mod_small, H.
Qed.
Definition backs (k s : N) : N := N.iter k back s.
Lemma backs_steps k : forall s, s < 2^32 -> backs k (steps k s) = s.
Proof.
  induction k as [|k IH] using N.peano_ind; intros s H; [reflexivity|].
  unfold backs. rewrite Niter_succ_r.
  rewrite <- N.add_1_l, steps_add, back_poke by (apply steps_lt, H). apply IH, H.
Qed.
Lemma backs_is k s u : s < 2^32 -> steps k s = u -> s = backs k u.
Proof. intros H <-. symmetry. apply backs_steps, H. Qed.

(** ** At most the six *)
Lemma only_six j l s : NoDup l -> length l = 6%nat -> (forall x, In x l -> x < 2^32 /\ spread 1 j x = best_ivs) ->
  s < 2^32 -> spread 1 j s = best_ivs -> In s l.
Proof.
  intros D L H Hs E. destruct (in_dec N.eq_dec s l) as [I|I]; [exact I|exfalso].
  assert (K : (length (s :: l) <= 6)%nat).
  { apply (six_seeds 1 j (s :: l) best_ivs); [now left|now constructor|]. intros x [<-|X]; [split; assumption|exact (H x X)]. }
  cbn in K. lia.
Qed.
Definition us_1 : list N := [0x7B0448D1; 0x469FB838; 0xD694C91C; 0xFB0448D1; 0xC69FB838; 0x5694C91C].
Definition us_2 : list N := [0x6EC6F716; 0xB5CC77B9; 0xA4C16DAD; 0xEEC6F716; 0x35CC77B9; 0x24C16DAD].
Lemma us_1_ok x : In x us_1 -> x < 2^32 /\ spread 1 3 x = best_ivs.
Proof. intros H. cbn [us_1 In] in H. repeat (destruct H as [<-|H]; [split; vm_compute; reflexivity|]). destruct H. Qed.
Lemma us_2_ok x : In x us_2 -> x < 2^32 /\ spread 1 4 x = best_ivs.
Proof. intros H. cbn [us_2 In] in H. repeat (destruct H as [<-|H]; [split; vm_compute; reflexivity|]). destruct H. Qed.
Lemma us_1_nodup : NoDup us_1.
Proof. repeat constructor; cbn; intros H; repeat (destruct H as [H|H]; [discriminate H|]); exact H. Qed.
Lemma us_2_nodup : NoDup us_2.
Proof. repeat constructor; cbn; intros H; repeat (destruct H as [H|H]; [discriminate H|]); exact H. Qed.

(** What is met follows from one state. *)
Lemma met_state g t pid ivs : t < 2^32 -> met g t pid ivs ->
  exists n f tries u, nature_choice (rand_at t) g 0 = (n, f) /\ u = steps (f + 2 * tries) t /\ u < 2^32 /\
    (forall j, j < tries -> pid_at (rand_at t) (f + 2 * j) mod 25 <> n) /\ pid = first_pid u /\ pid mod 25 = n /\
    ivs = ivs_from (rand_at u (iv1_pos g 2)) (rand_at u (iv2_pos g 2)).
Proof.
  intros T (n & f & k & A & B & C & D & E). exists n, f, k, (steps (f + 2 * k) t). split; [exact A|]. split; [reflexivity|].
  split; [apply steps_lt, T|]. split; [exact B|]. split; [|split; [exact D|]].
  - rewrite C. unfold pid_at, first_pid. now rewrite !rand_at_steps.
  - rewrite E, !rand_at_steps. unfold iv2_pos, iv1_pos. f_equal; f_equal; lia.
Qed.
Lemma met_back g t n f k u : t < 2^32 -> nature_choice (rand_at t) g 0 = (n, f) -> u = steps (f + 2 * k) t ->
  forallb (fun j => negb (pid_at (rand_at t) (f + 2 * N.of_nat j) mod 25 =? n)) (seq 0 (N.to_nat k)) = true ->
  first_pid u mod 25 = n -> met g t (first_pid u) (ivs_from (rand_at u (iv1_pos g 2)) (rand_at u (iv2_pos g 2))).
Proof.
  intros T A -> B D. exists n, f, k. split; [exact A|].
  assert (P : first_pid (steps (f + 2 * k) t) = pid_at (rand_at t) (f + 2 * k)) by (unfold pid_at, first_pid; now rewrite !rand_at_steps).
  split; [|split; [exact P|split; [exact D|]]].
  - intros j Hj. rewrite forallb_forall in B. specialize (B (N.to_nat j)). rewrite N2Nat.id in B.
    apply N.eqb_neq, negb_true_iff, B, in_seq. lia.
  - rewrite !rand_at_steps. unfold iv2_pos, iv1_pos. f_equal; f_equal; lia.
Qed.
Definition method_1 (g : wildgen) : Prop := w_method g <> Method_METHOD_2 /\ w_method g <> Method_METHOD_4.
Lemma pos_1 g : method_1 g -> iv1_pos g 2 = 3 /\ iv2_pos g 2 = 4.
Proof. intros [A B]. apply N.eqb_neq in A, B. unfold iv2_pos, iv1_pos. now rewrite A, B. Qed.
Lemma pos_2 g : w_method g = Method_METHOD_2 -> iv1_pos g 2 = 4 /\ iv2_pos g 2 = 5.
Proof. intros A. unfold iv2_pos, iv1_pos. now rewrite A. Qed.

Lemma only_1 g t pid : method_1 g -> t < 2^32 -> met g t pid best_ivs -> In pid best_pids_1.
Proof.
  intros M T H. destruct (met_state _ _ _ _ T H) as (n & f & k & u & _ & _ & U & _ & -> & _ & E).
  destruct (pos_1 g M) as [P1 P2]. rewrite P1, P2 in E.
  assert (I : In u us_1) by (apply (only_six 3); [exact us_1_nodup|reflexivity|exact us_1_ok|exact U|now symmetry]).
  change best_pids_1 with (map first_pid us_1). now apply in_map.
Qed.
Lemma only_2 g t pid : w_method g = Method_METHOD_2 -> t < 2^32 -> met g t pid best_ivs -> In pid best_pids_2.
Proof.
  intros M T H. destruct (met_state _ _ _ _ T H) as (n & f & k & u & _ & _ & U & _ & -> & _ & E).
  destruct (pos_2 g M) as [P1 P2]. rewrite P1, P2 in E.
  assert (I : In u us_2) by (apply (only_six 4); [exact us_2_nodup|reflexivity|exact us_2_ok|exact U|now symmetry]).
  change best_pids_2 with (map first_pid us_2). now apply in_map.
Qed.

(** ** All that can be met *)
Definition found_by (lead_nature : bool) (w : N * N * N) : bool :=
  let '(u, t, k) := w in let n := first_pid u mod 25 in
  (t <? 2^32) && (if lead_nature then rand_at t 1 mod 2 =? 0 else rand_at t 1 mod 25 =? n) && (u =? steps (1 + 2 * k) t) &&
  forallb (fun j => negb (pid_at (rand_at t) (1 + 2 * N.of_nat j) mod 25 =? n)) (seq 0 (N.to_nat k)).
Lemma found_sync g u t k : found_by true (u, t, k) = true -> w_lead g = first_pid u mod 25 ->
  t < 2^32 /\ met g t (first_pid u) (ivs_from (rand_at u (iv1_pos g 2)) (rand_at u (iv2_pos g 2))).
Proof.
  unfold found_by. intros F L. rewrite !andb_true_iff in F. destruct F as [[[A B] C] D].
  apply N.ltb_lt in A. apply N.eqb_eq in C. split; [exact A|].
  apply (met_back g t (first_pid u mod 25) 1 k u A); [|exact C|exact D|reflexivity].
  unfold nature_choice. change (0 + 1) with 1. rewrite B.
  assert (Q : w_lead g <=? Lead_SYNCHRONIZE_QUIRKY = true).
  { rewrite L. apply N.leb_le. assert (Q : first_pid u mod 25 < 25) by (apply N.mod_lt; discriminate). unfold Lead_SYNCHRONIZE_QUIRKY. lia. }
  rewrite Q, L. reflexivity.
Qed.
Lemma found_plain g u t k : found_by false (u, t, k) = true -> Lead_SYNCHRONIZE_QUIRKY < w_lead g ->
  t < 2^32 /\ met g t (first_pid u) (ivs_from (rand_at u (iv1_pos g 2)) (rand_at u (iv2_pos g 2))).
Proof.
  unfold found_by. intros F L. rewrite !andb_true_iff in F. destruct F as [[[A B] C] D].
  apply N.ltb_lt in A. apply N.eqb_eq in C, B. split; [exact A|].
  apply (met_back g t (first_pid u mod 25) 1 k u A); [|exact C|exact D|reflexivity].
  unfold nature_choice. change (0 + 1) with 1. rewrite B. apply N.leb_gt in L. now rewrite L.
Qed.
Definition sync_1 : list (N * N * N) :=
  [(0x7B0448D1, 0x6EC6F716, 0); (0x469FB838, 0xE748D9F7, 1); (0xD694C91C, 0xA4C16DAD, 0);
   (0xFB0448D1, 0xEEC6F716, 0); (0xC69FB838, 0x6748D9F7, 1); (0x5694C91C, 0x24C16DAD, 0)].
Definition plain_1 : list (N * N * N) :=
  [(0x7B0448D1, 0xFF365F38, 27); (0x469FB838, 0x07796091, 4); (0xD694C91C, 0x71D3F539, 2);
   (0xFB0448D1, 0x0464D4BE, 12); (0xC69FB838, 0xC6613E3F, 13); (0x5694C91C, 0xF340228F, 7)].
Definition sync_2 : list (N * N * N) :=
  [(0x6EC6F716, 0x666C0F4F, 0); (0xB5CC77B9, 0xF878709E, 0); (0xA4C16DAD, 0x2F0D27B8, 1);
   (0xEEC6F716, 0xE66C0F4F, 0); (0x35CC77B9, 0x7878709E, 0); (0x24C16DAD, 0xAF0D27B8, 1)].
Definition plain_2 : list (N * N * N) := [(0xA4C16DAD, 0xB921741E, 2); (0x35CC77B9, 0xD9CF418C, 5)].
Definition u_of (w : N * N * N) : N := fst (fst w).
Lemma all_found : forallb (found_by true) (sync_1 ++ sync_2) = true /\ forallb (found_by false) (plain_1 ++ plain_2) = true.
Proof. split; vm_compute; reflexivity. Qed.
Lemma best_1 g u : method_1 g -> In u us_1 -> ivs_from (rand_at u (iv1_pos g 2)) (rand_at u (iv2_pos g 2)) = best_ivs.
Proof. intros M I. destruct (pos_1 g M) as [-> ->]. exact (proj2 (us_1_ok u I)). Qed.
Lemma best_2 g u : w_method g = Method_METHOD_2 -> In u us_2 -> ivs_from (rand_at u (iv1_pos g 2)) (rand_at u (iv2_pos g 2)) = best_ivs.
Proof. intros M I. destruct (pos_2 g M) as [-> ->]. exact (proj2 (us_2_ok u I)). Qed.
Lemma pid_in l (ws : list (N * N * N)) pid : l = map first_pid (map u_of ws) -> In pid l ->
  exists u t k, In (u, t, k) ws /\ pid = first_pid u.
Proof.
  intros -> H. rewrite map_map in H. apply in_map_iff in H. destruct H as ([[u t] k] & <- & I). exists u, t, k. split; [exact I|reflexivity].
Qed.
Lemma u_in us (ws : list (N * N * N)) u t k : incl (map u_of ws) us -> In (u, t, k) ws -> In u us.
Proof. intros S I. apply S. exact (in_map u_of _ _ I). Qed.

Lemma sync_1_met g pid : method_1 g -> In pid best_pids_1 -> w_lead g = pid mod 25 -> exists t, t < 2^32 /\ met g t pid best_ivs.
Proof.
  intros M I L. destruct (pid_in best_pids_1 sync_1 pid eq_refl I) as (u & t & k & Iw & ->).
  assert (F : found_by true (u, t, k) = true) by (apply (proj1 (forallb_forall _ _) (proj1 all_found)), in_or_app; now left).
  destruct (found_sync g u t k F L) as [T Mt]. exists t. split; [exact T|].
  rewrite (best_1 g u M (u_in us_1 sync_1 u t k (incl_refl us_1) Iw)) in Mt. exact Mt.
Qed.
Lemma plain_1_met g pid : method_1 g -> In pid best_pids_1 -> Lead_SYNCHRONIZE_QUIRKY < w_lead g -> exists t, t < 2^32 /\ met g t pid best_ivs.
Proof.
  intros M I L. destruct (pid_in best_pids_1 plain_1 pid eq_refl I) as (u & t & k & Iw & ->).
  assert (F : found_by false (u, t, k) = true) by (apply (proj1 (forallb_forall _ _) (proj2 all_found)), in_or_app; now left).
  destruct (found_plain g u t k F L) as [T Mt]. exists t. split; [exact T|].
  rewrite (best_1 g u M (u_in us_1 plain_1 u t k (incl_refl us_1) Iw)) in Mt. exact Mt.
Qed.
Lemma sync_2_met g pid : w_method g = Method_METHOD_2 -> In pid best_pids_2 -> w_lead g = pid mod 25 -> exists t, t < 2^32 /\ met g t pid best_ivs.
Proof.
  intros M I L. destruct (pid_in best_pids_2 sync_2 pid eq_refl I) as (u & t & k & Iw & ->).
  assert (F : found_by true (u, t, k) = true) by (apply (proj1 (forallb_forall _ _) (proj1 all_found)), in_or_app; now right).
  destruct (found_sync g u t k F L) as [T Mt]. exists t. split; [exact T|].
  rewrite (best_2 g u M (u_in us_2 sync_2 u t k (incl_refl us_2) Iw)) in Mt. exact Mt.
Qed.
Lemma plain_2_met g pid : w_method g = Method_METHOD_2 -> In pid plain_pids_2 -> Lead_SYNCHRONIZE_QUIRKY < w_lead g ->
  exists t, t < 2^32 /\ met g t pid best_ivs.
Proof.
  intros M I L. destruct (pid_in plain_pids_2 plain_2 pid eq_refl I) as (u & t & k & Iw & ->).
  assert (F : found_by false (u, t, k) = true) by (apply (proj1 (forallb_forall _ _) (proj2 all_found)), in_or_app; now right).
  destruct (found_plain g u t k F L) as [T Mt]. exists t. split; [exact T|].
  assert (Iu : In u us_2).
  { apply (u_in us_2 plain_2 u t k); [|exact Iw]. intros x [<-|[<-|[]]]; cbn; tauto. }
  rewrite (best_2 g u M Iu) in Mt. exact Mt.
Qed.

(** ** What cannot: going back, a PID of the nature comes before any nature *)
Definition cut_off (K : nat) (u : N) : bool :=
  let n := first_pid u mod 25 in
  forallb (fun i => negb (rand_at (backs (1 + 2 * N.of_nat i) u) 1 mod 25 =? n)) (seq 0 K) &&
  (first_pid (backs (2 * N.of_nat K) u) mod 25 =? n).
Lemma no_way g t u k K n : Lead_SYNCHRONIZE_QUIRKY < w_lead g -> t < 2^32 -> (0 < K)%nat -> cut_off K u = true ->
  nature_choice (rand_at t) g 0 = (n, 1) -> u = steps (1 + 2 * k) t ->
  (forall j, j < k -> pid_at (rand_at t) (1 + 2 * j) mod 25 <> n) -> first_pid u mod 25 = n -> False.
Proof.
  intros L T K0 C A U B D. unfold cut_off in C. apply andb_true_iff in C. destruct C as [C1 C2].
  assert (N : rand_at t 1 mod 25 = n).
  { unfold nature_choice in A. apply N.leb_gt in L. rewrite L in A. injection A as A. exact A. }
  destruct (N.lt_ge_cases k (N.of_nat K)) as [H|H].
  - rewrite forallb_forall in C1. specialize (C1 (N.to_nat k)). rewrite N2Nat.id in C1.
    assert (I : In (N.to_nat k) (seq 0 K)) by (apply in_seq; lia). specialize (C1 I).
    rewrite <- (backs_is (1 + 2 * k) t u T (eq_sym U)), D in C1. apply negb_true_iff, N.eqb_neq in C1. contradiction.
  - set (j := k - N.of_nat K). assert (E : k = j + N.of_nat K) by (unfold j; lia).
    assert (Hj : j < k) by lia. apply (B j Hj).
    assert (V : steps (1 + 2 * j) t = backs (2 * N.of_nat K) u).
    { apply backs_is; [apply steps_lt, T|]. rewrite <- steps_add, U. f_equal. lia. }
    apply N.eqb_eq in C2. rewrite <- V, D in C2. rewrite <- C2. unfold pid_at, first_pid. now rewrite !rand_at_steps.
Qed.
Lemma cut_offs : cut_off 10 0x6EC6F716 = true /\ cut_off 7 0xB5CC77B9 = true /\ cut_off 6 0xEEC6F716 = true /\ cut_off 8 0x24C16DAD = true.
Proof. repeat split; vm_compute; reflexivity. Qed.
Lemma only_plain_2 g t pid : w_method g = Method_METHOD_2 -> Lead_SYNCHRONIZE_QUIRKY < w_lead g -> t < 2^32 -> met g t pid best_ivs ->
  In pid plain_pids_2.
Proof.
  intros M L T H. destruct (met_state _ _ _ _ T H) as (n & f & k & u & A & U0 & U & B & -> & D & E).
  destruct (pos_2 g M) as [P1 P2]. rewrite P1, P2 in E.
  assert (I : In u us_2) by (apply (only_six 4); [exact us_2_nodup|reflexivity|exact us_2_ok|exact U|now symmetry]).
  assert (F : f = 1). { unfold nature_choice in A. pose proof L as L'. apply N.leb_gt in L'. rewrite L' in A. now injection A as _ <-. }
  subst f. destruct cut_offs as (c1 & c2 & c3 & c4).
  assert (W : forall K, (0 < K)%nat -> cut_off K u = true -> False) by (intros K K0 c; exact (no_way g t u k K n L T K0 c A U0 B D)).
  clear - I W c1 c2 c3 c4. cbn [us_2 In] in I. destruct I as [I|[I|[I|[I|[I|[I|[]]]]]]]; subst u.
  - exfalso. apply (W 10%nat); [lia|exact c1].
  - exfalso. apply (W 7%nat); [lia|exact c2].
  - left. vm_compute. reflexivity.
  - exfalso. apply (W 6%nat); [lia|exact c3].
  - right. left. vm_compute. reflexivity.
  - exfalso. apply (W 8%nat); [lia|exact c4].
Qed.

(** ** Method 4 *)
Lemma low_split s : s < 2^32 -> exists b, (b = 0 \/ b = 2147483648) /\ s = Z.to_N (low s) + b.
Proof.
  intros H. change (2^32) with 4294967296 in H. unfold low. destruct (N.lt_ge_cases s 2147483648) as [C|C].
  - exists 0. split; [now left|]. rewrite Z.mod_small by lia. lia.
  - exists 2147483648. split; [now right|].
    replace (Z.of_N s) with (Z.of_N s - 2147483648 + 1 * 2147483648)%Z by ring. rewrite Z.mod_add by discriminate. rewrite Z.mod_small by lia. lia.
Qed.
Lemma spread4_close j x y : spread 2 j x = spread 2 j y ->
  exists i k, (low (steps j x) = low (steps j y) + (14985 * i + 54014 * k) /\ (k = 0 /\ -2 <= i <= 2 \/ i = 0 /\ -1 <= k <= 1))%Z.
Proof.
  intros E. apply ivs_words in E. destruct E as [E1 E2]. rewrite !rand_state in E1, E2. apply low_close in E1, E2. rewrite !next_state2 in E2.
  destruct (low_next (steps j x) (steps j y)) as [q Q].
  destruct (low_next (poke (steps j x)) (poke (steps j y))) as [q2 Q2].
  destruct (short2 (low (steps j x) - low (steps j y)) (low (poke (poke (steps j x))) - low (poke (poke (steps j y))))
           (567057121 * (low (steps j x) - low (steps j y)) + 1103515245 * q + q2)) as (i & k & A & B);
    [unfold in_window; clear - E1; lia|unfold in_window; clear - E2; lia|rewrite Q2, Q; ring|].
  exists i, k. split; [lia|exact B].
Qed.
Definition us_4 : list N := [0x33597310; 0xAAE8B215; 0xB3597310; 0x2AE8B215].
(** The states after three rands that could give the IVs. *)
Definition candidates_4 : list N :=
  let f := Z.to_N (low (steps 3 0x33597310)) in
  flat_map (fun b => map (fun d => b + d) [f - 29970; f - 14985; f; f + 14985; f + 29970; f - 54014; f + 54014]) [0; 2147483648].
Lemma candidates_ok : forallb (fun v => let u := backs 3 v in
  if list_eq_dec N.eq_dec (spread 2 3 u) best_ivs then existsb (N.eqb u) us_4 else true) candidates_4 = true.
Proof. vm_compute. reflexivity. Qed.
Lemma low_f : low (steps 3 0x33597310) = 2147439333%Z.
Proof. vm_compute. reflexivity. Qed.
Lemma only_four u : u < 2^32 -> spread 2 3 u = best_ivs -> In u us_4.
Proof.
  intros U E. assert (E' : spread 2 3 u = spread 2 3 0x33597310) by (rewrite E; vm_compute; reflexivity).
  destruct (spread4_close 3 u _ E') as (i & k & A & B). rewrite low_f in A.
  destruct (low_split (steps 3 u) (steps_lt 3 u U)) as (b & Hb & S).
  assert (C : In (steps 3 u) candidates_4).
  { unfold candidates_4. rewrite low_f. apply in_flat_map. exists b. split; [destruct Hb as [-> | ->]; cbn; auto|].
    apply in_map_iff. exists (Z.to_N (low (steps 3 u))). split; [rewrite S at 2; apply N.add_comm|]. rewrite A. clear - B.
    assert (D : (14985 * i + 54014 * k = -29970 \/ 14985 * i + 54014 * k = -14985 \/ 14985 * i + 54014 * k = 0 \/ 14985 * i + 54014 * k = 14985 \/
       14985 * i + 54014 * k = 29970 \/ 14985 * i + 54014 * k = -54014 \/ 14985 * i + 54014 * k = 54014)%Z) by lia.
    destruct D as [-> |[-> |[-> |[-> |[-> |[-> | ->]]]]]]; [do 0 right|do 1 right|do 2 right|do 3 right|do 4 right|do 5 right|do 6 right]; left; vm_compute; reflexivity. }
  pose proof (proj1 (forallb_forall _ _) candidates_ok _ C) as K. cbv beta zeta in K. rewrite (backs_steps 3 u U) in K.
  destruct (list_eq_dec N.eq_dec (spread 2 3 u) best_ivs) as [_|X]; [|contradiction].
  apply existsb_exists in K. destruct K as (v & I & Q). apply N.eqb_eq in Q. now rewrite Q.
Qed.
Lemma us_4_ok x : In x us_4 -> spread 2 3 x = best_ivs.
Proof. intros H. cbn [us_4 In] in H. repeat (destruct H as [<-|H]; [vm_compute; reflexivity|]). destruct H. Qed.
Lemma pos_4 g : w_method g = Method_METHOD_4 -> iv1_pos g 2 = 3 /\ iv2_pos g 2 = 5.
Proof. intros A. unfold iv2_pos, iv1_pos. now rewrite A. Qed.
Lemma only_4 g t pid : w_method g = Method_METHOD_4 -> t < 2^32 -> met g t pid best_ivs -> In pid best_pids_4.
Proof.
  intros M T H. destruct (met_state _ _ _ _ T H) as (n & f & k & u & _ & _ & U & _ & -> & _ & E).
  destruct (pos_4 g M) as [P1 P2]. rewrite P1, P2 in E.
  assert (I : In u us_4) by (apply only_four; [exact U|now symmetry]).
  change best_pids_4 with (map first_pid us_4). now apply in_map.
Qed.
Definition sync_4 : list (N * N * N) :=
  [(0x33597310, 0xD27D90C9, 4); (0xAAE8B215, 0x4AA9EAEA, 0); (0xB3597310, 0x527D90C9, 4); (0x2AE8B215, 0xCAA9EAEA, 0)].
Definition plain_4 : list (N * N * N) :=
  [(0x33597310, 0xD27D90C9, 4); (0xAAE8B215, 0x71C55216, 10); (0xB3597310, 0x744AA7A1, 8); (0x2AE8B215, 0x4A51F678, 5)].
Lemma found_4 : forallb (found_by true) sync_4 = true /\ forallb (found_by false) plain_4 = true.
Proof. split; vm_compute; reflexivity. Qed.
Lemma best_4 g u : w_method g = Method_METHOD_4 -> In u us_4 -> ivs_from (rand_at u (iv1_pos g 2)) (rand_at u (iv2_pos g 2)) = best_ivs.
Proof. intros M I. destruct (pos_4 g M) as [-> ->]. exact (us_4_ok u I). Qed.
Lemma sync_4_met g pid : w_method g = Method_METHOD_4 -> In pid best_pids_4 -> w_lead g = pid mod 25 -> exists t, t < 2^32 /\ met g t pid best_ivs.
Proof.
  intros M I L. destruct (pid_in best_pids_4 sync_4 pid eq_refl I) as (u & t & k & Iw & ->).
  assert (F : found_by true (u, t, k) = true) by (apply (proj1 (forallb_forall _ _) (proj1 found_4)), Iw).
  destruct (found_sync g u t k F L) as [T Mt]. exists t. split; [exact T|].
  rewrite (best_4 g u M (u_in us_4 sync_4 u t k (incl_refl us_4) Iw)) in Mt. exact Mt.
Qed.
Lemma plain_4_met g pid : w_method g = Method_METHOD_4 -> In pid best_pids_4 -> Lead_SYNCHRONIZE_QUIRKY < w_lead g -> exists t, t < 2^32 /\ met g t pid best_ivs.
Proof.
  intros M I L. destruct (pid_in best_pids_4 plain_4 pid eq_refl I) as (u & t & k & Iw & ->).
  assert (F : found_by false (u, t, k) = true) by (apply (proj1 (forallb_forall _ _) (proj2 found_4)), Iw).
  destruct (found_plain g u t k F L) as [T Mt]. exists t. split; [exact T|].
  rewrite (best_4 g u M (u_in us_4 plain_4 u t k (incl_refl us_4) Iw)) in Mt. exact Mt.
Qed.

(** ** All methods *)
Lemma methods (g : wildgen) : w_method g = Method_METHOD_2 /\ best_pids (w_method g) = best_pids_2 /\ plain_best_pids (w_method g) = plain_pids_2 \/
  w_method g = Method_METHOD_4 /\ best_pids (w_method g) = best_pids_4 /\ plain_best_pids (w_method g) = best_pids_4 \/
  method_1 g /\ best_pids (w_method g) = best_pids_1 /\ plain_best_pids (w_method g) = best_pids_1.
Proof.
  unfold plain_best_pids, best_pids, method_1. destruct (w_method g =? Method_METHOD_2) eqn:A; [left; apply N.eqb_eq in A; auto|right].
  destruct (w_method g =? Method_METHOD_4) eqn:B; [left; apply N.eqb_eq in B; auto|right]. apply N.eqb_neq in A, B. auto.
Qed.
Section All.
Variables (fuel : nat) (junk : list N) (g : wildgen) (area : area3) (delay initial pid : N).
Hypothesis Hj : length junk = 6%nat.
Hypothesis Hf : 2^31 <= N.of_nat fuel.
Hypothesis Hd : initial + delay < 2^32.
Hypothesis Hp : plain_place g area.
Lemma best_only : can_be_met fuel junk g area delay initial pid best_ivs -> In pid (best_pids (w_method g)).
Proof.
  intros H. apply (met_iff fuel junk g area initial delay Hj Hp Hf Hd) in H. destruct H as (t & T & H).
  destruct (methods g) as [(M & -> & _)|[(M & -> & _)|(M & -> & _)]]; [exact (only_2 g t pid M T H)|exact (only_4 g t pid M T H)|exact (only_1 g t pid M T H)].
Qed.
Lemma best_sync : w_lead g = pid mod 25 -> (can_be_met fuel junk g area delay initial pid best_ivs <-> In pid (best_pids (w_method g))).
Proof.
  intros L. split; [exact best_only|]. intros I. apply (met_iff fuel junk g area initial delay Hj Hp Hf Hd).
  destruct (methods g) as [(M & E & _)|[(M & E & _)|(M & E & _)]]; rewrite E in I;
    [exact (sync_2_met g pid M I L)|exact (sync_4_met g pid M I L)|exact (sync_1_met g pid M I L)].
Qed.
Lemma best_plain : Lead_SYNCHRONIZE_QUIRKY < w_lead g ->
  (can_be_met fuel junk g area delay initial pid best_ivs <-> In pid (plain_best_pids (w_method g))).
Proof.
  intros L. rewrite (met_iff fuel junk g area initial delay Hj Hp Hf Hd). split.
  - intros (t & T & H).
    destruct (methods g) as [(M & _ & ->)|[(M & _ & ->)|(M & _ & ->)]]; [exact (only_plain_2 g t pid M L T H)|exact (only_4 g t pid M T H)|exact (only_1 g t pid M T H)].
  - intros I. destruct (methods g) as [(M & _ & E)|[(M & _ & E)|(M & _ & E)]]; rewrite E in I;
    [exact (plain_2_met g pid M I L)|exact (plain_4_met g pid M I L)|exact (plain_1_met g pid M I L)].
Qed.
End All.
