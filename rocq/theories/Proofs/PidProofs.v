(** Which PIDs two rands in a row can make, and how many. *)
From Coq Require Import NArith ZArith List Bool Lia SetoidList MSets.MSetPositive.
From Verif Require Import Base.Word Base.WordLemmas Model.Gen3State Model.Gen3Area Model.Gen3Wild
  Spec.LcrngSpec Spec.Gen3Spec Spec.Gen3WildSpec Spec.SpreadSpec Spec.RecoverSpec Spec.PidSpec
  Proofs.Gen3AreaProofs Proofs.Gen3Pid Proofs.Gen3Props Proofs.LcrngRecover Proofs.Gen3Recover Proofs.SpreadProofs.
Import ListNotations.
Ltac Zify.zify_post_hook ::= idtac.
Open Scope N_scope.

(** ** The halves *)
Definition step_high (x : N) : N := (0x41C64E6D * x + 0x6073) / 65536 mod 65536.
Lemma poke_high lo x : x < 65536 -> poke (65536 * lo + x) / 65536 = (0x41C64E6D * lo + step_high x) mod 65536.
Proof.
  intros Hx. assert (E : poke (65536 * lo + x) = (65536 * (0x41C64E6D * lo) + (0x41C64E6D * x + 0x6073)) mod (65536 * 65536)).
  { unfold poke, lcg. cbv zeta. change (2 ^ 32) with (65536 * 65536). f_equal. ring. }
  rewrite E. rewrite N.mod_mul_r by discriminate.
  set (w := 0x41C64E6D * x + 0x6073). set (v := 65536 * (0x41C64E6D * lo) + w).
  assert (R : v mod 65536 < 65536) by (apply N.mod_lt; discriminate).
  rewrite N.mul_comm, N.div_add by discriminate. rewrite (N.div_small (v mod 65536)) by exact R.
  assert (V : v / 65536 = 0x41C64E6D * lo + w / 65536).
  { unfold v. rewrite N.mul_comm, N.div_add_l by discriminate. reflexivity. }
  rewrite V. unfold step_high. fold w. rewrite N.add_0_l. now rewrite N.add_mod_idemp_r by discriminate.
Qed.
Lemma halves lo hi : lo < 65536 ->
  (occurs (lo + 65536 * hi) <-> exists x, x < 65536 /\ hi = (0x41C64E6D * lo + step_high x) mod 65536).
Proof.
  intros L. unfold occurs. split.
  - intros (s & Hs & E). rewrite !rand_state in E. change 2 with (1 + 1) in E. rewrite next_state in E. set (t := steps 1 s) in *.
    assert (T : t < 4294967296) by exact (steps_lt 1 s Hs).
    assert (B : t / 65536 < 65536) by (apply N.div_lt_upper_bound; [discriminate|exact T]).
    assert (H : t / 65536 = lo /\ poke t / 65536 = hi) by lia. destruct H as [H1 H2].
    exists (t mod 65536). split; [apply N.mod_lt; discriminate|]. rewrite <- H2, <- poke_high by (apply N.mod_lt; discriminate).
    rewrite <- H1, <- N.div_mod by discriminate. reflexivity.
  - intros (x & Hx & E). destruct (steps_onto 1 (65536 * lo + x)) as [s [Hs Es]]; [change (2 ^ 32) with 4294967296; lia|].
    exists s. split; [exact Hs|]. rewrite !rand_state. change 2 with (1 + 1). rewrite next_state, Es, poke_high by exact Hx.
    rewrite <- E. f_equal. rewrite N.mul_comm, N.div_add_l by discriminate. rewrite (N.div_small x) by exact Hx. apply N.add_0_r.
Qed.

(** ** Counting *)
Definition mark (p : N * PositiveSet.t) : N * PositiveSet.t :=
  let '(acc, s) := p in (acc + 0x41C64E6D, PositiveSet.add (N.succ_pos (N.land (N.shiftr acc 16) 65535)) s).
Definition marked (n : N) : N * PositiveSet.t := N.iter n mark (0x6073, PositiveSet.empty).
Lemma step_high_eq x : N.land (N.shiftr (0x41C64E6D * x + 0x6073) 16) 65535 = step_high x.
Proof. unfold step_high. rewrite N.shiftr_div_pow2. change 65535 with (N.ones 16). rewrite N.land_ones. reflexivity. Qed.
Lemma marked_ok n : fst (marked n) = 0x41C64E6D * n + 0x6073 /\
  forall d, PositiveSet.In (N.succ_pos d) (snd (marked n)) <-> exists x, x < n /\ step_high x = d.
Proof.
  induction n as [|n IH] using N.peano_ind.
  - split; [reflexivity|]. intros d. split; [|intros (x & H & _); lia].
    intros H. exfalso. revert H. apply PositiveSet.empty_spec.
  - unfold marked in *. rewrite N.iter_succ. destruct (N.iter n mark (0x6073, PositiveSet.empty)) as [acc s].
    cbn [fst snd] in IH. destruct IH as [A S]. unfold mark. cbn [fst snd]. split; [lia|].
    intros d. rewrite PositiveSet.add_spec, A, step_high_eq, S. split.
    + intros [E|(x & H & E)]; [|exists x; split; [lia|exact E]].
      exists n. split; [lia|]. apply (f_equal Npos) in E. rewrite !N.succ_pos_spec in E. lia.
    + intros (x & H & E). destruct (N.eq_dec x n) as [->|Nx]; [left; now rewrite E|right; exists x; split; [lia|exact E]].
Qed.
Definition set_list (s : PositiveSet.t) : list N := map Pos.pred_N (PositiveSet.elements s).
Lemma nodupA_eq (l : list positive) : NoDupA (@eq positive) l -> NoDup l.
Proof. induction 1 as [|x l H _ IH]; constructor; [|exact IH]. intros K. apply H. apply In_InA; [apply eq_equivalence|exact K]. Qed.
Lemma NoDup_map_in {A B} (f : A -> B) l : (forall x y, In x l -> In y l -> f x = f y -> x = y) -> NoDup l -> NoDup (map f l).
Proof.
  intros Hf H. induction H as [|x l Hx _ IH]; [constructor|]. cbn [map]. constructor.
  - intros K. apply in_map_iff in K. destruct K as (y & Ey & Hy). apply Hx.
    rewrite (Hf x y); [exact Hy|left; reflexivity|right; exact Hy|now symmetry].
  - apply IH. intros a b Ha Hb. apply Hf; right; assumption.
Qed.
Lemma in_elements s p : In p (PositiveSet.elements s) <-> PositiveSet.In p s.
Proof.
  rewrite <- PositiveSet.elements_spec1. split; intros H.
  - apply In_InA; [apply eq_equivalence|exact H].
  - apply InA_alt in H. destruct H as (y & E & Hy). change (p = y) in E. subst y. exact Hy.
Qed.
Lemma succ_pred p : N.succ_pos (Pos.pred_N p) = p.
Proof. assert (H : Npos (N.succ_pos (Pos.pred_N p)) = Npos p) by (rewrite N.succ_pos_spec; apply N.succ_pos_pred). now injection H. Qed.
Lemma set_list_in s d : In d (set_list s) <-> PositiveSet.In (N.succ_pos d) s.
Proof.
  unfold set_list. rewrite in_map_iff. split.
  - intros (p & E & Hp). subst d. rewrite succ_pred. apply in_elements. exact Hp.
  - intros H. exists (N.succ_pos d). split; [apply N.pos_pred_succ|apply in_elements; exact H].
Qed.
Lemma set_list_nodup s : NoDup (set_list s).
Proof.
  unfold set_list. apply NoDup_map_in.
  - intros x y _ _ E. rewrite <- (succ_pred x), <- (succ_pred y), E. reflexivity.
  - apply nodupA_eq. apply PositiveSet.elements_spec2w.
Qed.
Lemma set_list_length s : length (set_list s) = PositiveSet.cardinal s.
Proof. unfold set_list. rewrite map_length. symmetry. apply PositiveSet.cardinal_spec. Qed.

Lemma hits : exists l, NoDup l /\ N.of_nat (length l) = 45880 /\ forall d, In d l <-> exists x, x < 65536 /\ step_high x = d.
Proof.
  assert (G : forall n k, N.of_nat (PositiveSet.cardinal (snd (marked n))) = k ->
    exists l, NoDup l /\ N.of_nat (length l) = k /\ forall d, In d l <-> exists x, x < n /\ step_high x = d).
  { intros n k H. exists (set_list (snd (marked n))). split; [apply set_list_nodup|]. rewrite set_list_length. split; [exact H|].
    intros d. rewrite set_list_in. apply marked_ok. }
  apply G. vm_compute. exact eq_refl.
Qed.
Lemma step_high_lt x : step_high x < 65536.
Proof. apply N.mod_lt. discriminate. Qed.
Lemma shift_inj c d e : d < 65536 -> e < 65536 -> (c + d) mod 65536 = (c + e) mod 65536 -> d = e.
Proof.
  intros Hd He H. pose proof (N.div_mod (c + d) 65536) as A. pose proof (N.div_mod (c + e) 65536) as B.
  rewrite H in A. assert (Z : 65536 <> 0) by discriminate. specialize (A Z). specialize (B Z). lia.
Qed.
Lemma highs_list lo : lo < 65536 ->
  exists l, NoDup l /\ N.of_nat (length l) = 45880 /\ forall hi, In hi l <-> occurs (lo + 65536 * hi).
Proof.
  intros L. destruct hits as (l & ND & Len & M). exists (map (fun d => (0x41C64E6D * lo + d) mod 65536) l). split; [|split].
  - apply NoDup_map_in; [|exact ND]. intros d e Hd He. apply M in Hd. apply M in He.
    destruct Hd as (x & _ & <-), He as (y & _ & <-). apply shift_inj; apply step_high_lt.
  - rewrite map_length. exact Len.
  - intros hi. rewrite in_map_iff, halves by exact L. split.
    + intros (d & E & H). apply M in H. destruct H as (x & Hx & Ex). exists x. split; [exact Hx|]. now rewrite Ex.
    + intros (x & Hx & E). exists (step_high x). split; [now symmetry|]. apply M. exists x. now split.
Qed.

(** Joining the lists of all low halves. *)
Lemma all_low k n : (forall lo, lo < 65536 -> exists l : list N, NoDup l /\ N.of_nat (length l) = k /\ forall hi, In hi l <-> occurs (lo + 65536 * hi)) ->
  n <= 65536 -> exists l, NoDup l /\ N.of_nat (length l) = n * k /\ forall pid, In pid l <-> pid mod 65536 < n /\ occurs pid.
Proof.
  intros H. induction n as [|n IH] using N.peano_ind; intros Hn.
  - exists []. split; [constructor|]. split; [reflexivity|]. intros pid. split; [intros []|]. intros [F _]. lia.
  - destruct IH as (l & ND & Len & M); [lia|]. destruct (H n) as (h & NDh & Lenh & Mh); [lia|].
    exists (map (fun hi => n + 65536 * hi) h ++ l).
    assert (D : forall hi, (n + 65536 * hi) mod 65536 = n).
    { intros hi. rewrite N.mul_comm, N.mod_add by discriminate. apply N.mod_small. lia. }
    split; [|split].
    + assert (NDm : NoDup (map (fun hi => n + 65536 * hi) h)) by (apply NoDup_map_in; [intros; lia|exact NDh]).
      assert (Dj : forall q, In q (map (fun hi => n + 65536 * hi) h) -> ~ In q l).
      { intros q Hq K. apply in_map_iff in Hq. destruct Hq as (hi & <- & _). apply M in K. rewrite D in K. lia. }
      revert NDm Dj. generalize (map (fun hi => n + 65536 * hi) h). intros m. induction m as [|q m IHm]; intros NDm Dj; [exact ND|].
      inversion NDm as [|q' m' Hq Hm]; subst. cbn [app]. constructor.
      * intros K. apply in_app_or in K. destruct K as [K|K]; [exact (Hq K)|]. exact (Dj q (or_introl eq_refl) K).
      * apply IHm; [exact Hm|]. intros r Hr. apply Dj. now right.
    + rewrite app_length, map_length, Nat2N.inj_add, Lenh, Len. lia.
    + intros pid. rewrite in_app_iff, M, in_map_iff. split.
      * intros [(hi & <- & Hh)|[A B]]; [rewrite D; split; [lia|apply Mh; exact Hh]|split; [lia|exact B]].
      * intros [A B]. destruct (N.eq_dec (pid mod 65536) n) as [E|E]; [left|right; split; [lia|exact B]].
        assert (P : n + 65536 * (pid / 65536) = pid).
        { rewrite <- E. pose proof (N.div_mod pid 65536). lia. }
        exists (pid / 65536). split; [exact P|]. apply Mh. now rewrite P.
Qed.
Lemma all_pids : exists l, NoDup l /\ N.of_nat (length l) = 3006791680 /\ forall pid, In pid l <-> occurs pid.
Proof.
  destruct (all_low 45880 65536 highs_list (N.le_refl _)) as (l & ND & Len & M). exists l. split; [exact ND|]. split; [exact Len|].
  intros pid. rewrite M. split; [now intros []|]. intros H. split; [apply N.mod_lt; discriminate|exact H].
Qed.

(** ** PIDs that never occur *)
Lemma step_high_never x : x < 65536 -> step_high x <> 4.
Proof.
  intros Hx E. unfold step_high in E.
  pose proof (N.div_mod (0x41C64E6D * x + 0x6073) 65536) as A.
  pose proof (N.div_mod ((0x41C64E6D * x + 0x6073) / 65536) 65536) as B. rewrite E in B.
  pose proof (N.mod_lt (0x41C64E6D * x + 0x6073) 65536) as C.
  assert (Z : 65536 <> 0) by discriminate. specialize (A Z). specialize (B Z). specialize (C Z).
  set (r := (0x41C64E6D * x + 0x6073) mod 65536) in *. set (v := (0x41C64E6D * x + 0x6073) / 65536) in *.
  set (q := v / 65536) in *. clearbody r q v. subst v.
  assert (X1 : exists k, (68321 * Z.of_N x + 76347 * (262144 + Z.of_N r) = 76347 * 24691 + 4294967296 * k)%Z)
    by (exists (19616 * Z.of_N x - 76347 * Z.of_N q)%Z; lia).
  assert (X2 : exists k, (-32471 * Z.of_N x + 26579 * (262144 + Z.of_N r) = 26579 * 24691 + 4294967296 * k)%Z)
    by (exists (6829 * Z.of_N x - 26579 * Z.of_N q)%Z; lia).
  destruct X1 as [k1 X1], X2 as [k2 X2]. clear A E. lia.
Qed.
Lemma never lo : lo < 65536 -> ~ occurs (lo + 65536 * ((0x41C64E6D * lo + 4) mod 65536)).
Proof.
  intros L H. apply halves in H; [|exact L]. destruct H as (x & Hx & E). apply shift_inj in E; [|reflexivity|apply step_high_lt].
  exact (step_high_never x Hx (eq_sym E)).
Qed.

(** ** Generated states *)
Lemma generated_occurs fuel junk g seed delay initial max area l :
  length junk = 6%nat -> setting_ok g area -> seed < 2^32 -> initial + delay < 2^32 -> initial + max <= 2^32 ->
  wild_generate fuel junk g seed delay initial max area = Ok l -> forall st, In st l -> occurs (g_pid st).
Proof.
  intros Hj Hset Hs Hd Hm H st Hin. apply In_nth_error in Hin. destruct Hin as [n Hn].
  rewrite <- (Nat2N.id n) in Hn.
  destruct (generated_identify _ _ _ _ _ _ _ _ _ Hj Hset Hs Hd Hm H (N.of_nat n) st Hn) as [p [E _]].
  apply (f_equal fst) in E. cbn [fst] in E. unfold pid_and_ivs in E. cbn [fst] in E.
  eexists. split; [|exact E]. apply steps_lt. exact Hs.
Qed.
