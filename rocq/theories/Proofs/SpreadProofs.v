(** The seeds behind six IVs: short vectors of a lattice modulo 2^31. *)
From Coq Require Import NArith ZArith List Bool Lia.
From Verif Require Import Base.Word Base.WordLemmas Model.Gen3State Model.Gen3Area Model.Gen3Wild
  Spec.LcrngSpec Spec.Gen3Spec Spec.Gen3WildSpec Spec.SpreadSpec
  Proofs.Gen3AreaProofs Proofs.Gen3Pid Proofs.Gen3Props Proofs.LcrngRecover Proofs.Gen3Recover.
Import ListNotations.
Ltac Zify.zify_post_hook ::= idtac.
Open Scope Z_scope.

Notation M := 2147483648.

(** ** The state behind a rand *)
Lemma rand_state s j : rand_at s j = (steps j s / 65536)%N.
Proof. reflexivity. Qed.
Lemma next_state s j : steps (j + 1) s = poke (steps j s).
Proof. symmetry. apply steps_S. Qed.
Lemma next_state2 s j : steps (j + 2) s = poke (poke (steps j s)).
Proof. now rewrite <- !next_state, <- N.add_assoc. Qed.

(** The low 31 bits of the next state. *)
Lemma low_poke s : low (poke s) = (1103515245 * low s + 24691) mod M.
Proof.
  unfold low at 1. rewrite poke_Z.
  change (z 1103515245) with 1103515245. change (z 24691) with 24691.
  destruct (low_of s) as [b B]. rewrite B.
  set (w := (low s + M * b) * 1103515245 + 24691).
  assert (H : w mod 4294967296 = w + M * (- (2 * (w / 4294967296)))).
  { rewrite (Z.mod_eq w 4294967296) by discriminate. ring. }
  rewrite H. unfold w.
  replace ((low s + M * b) * 1103515245 + 24691 + M * - (2 * (((low s + M * b) * 1103515245 + 24691) / 4294967296)))
    with (1103515245 * low s + 24691 + (b * 1103515245 - 2 * (((low s + M * b) * 1103515245 + 24691) / 4294967296)) * M) by ring.
  apply Z.mod_add. discriminate.
Qed.
Lemma low_steps k : forall s s', low s = low s' -> low (steps k s) = low (steps k s').
Proof.
  induction k using N.peano_ind; intros s s' H; [exact H|].
  rewrite <- !N.add_1_r, !next_state, !low_poke. now rewrite (IHk s s' H).
Qed.

(** ** Rands and windows of states *)
Lemma low_div x : low x / 65536 = z (x / 65536 mod 32768)%N.
Proof.
  unfold low. rewrite N2Z.inj_mod, N2Z.inj_div. change (z 65536) with 65536. change (z 32768) with 32768.
  change M with (65536 * 32768).
  rewrite Z.rem_mul_r by lia. rewrite Z.add_comm, Z.mul_comm, Z.div_add_l by lia.
  rewrite (Z.div_small (_ mod 65536)) by (apply Z.mod_pos_bound; reflexivity). lia.
Qed.
Lemma word_of_iv v : (v mod 32768 = v mod 32 + 32 * (v / 32 mod 32) + 1024 * (v / 1024 mod 32))%N.
Proof.
  change 32768%N with (1024 * 32)%N. rewrite N.mod_mul_r by discriminate.
  change 1024%N with (32 * 32)%N at 1. rewrite (N.mod_mul_r v 32 32) by discriminate. reflexivity.
Qed.
Lemma digits (u v w u' v' w' : N) : (u < 32 -> v < 32 -> w < 32 -> u' < 32 -> v' < 32 -> w' < 32 ->
  u + 32 * v + 1024 * w = u' + 32 * v' + 1024 * w' -> u = u' /\ v = v' /\ w = w')%N.
Proof. intros. assert (w = w') by lia. subst w'. assert (v = v') by lia. subst v'. repeat split. lia. Qed.
Lemma ivs_words r1 r2 r1' r2' : ivs_from r1 r2 = ivs_from r1' r2' <->
  (r1 mod 32768 = r1' mod 32768 /\ r2 mod 32768 = r2' mod 32768)%N.
Proof.
  split.
  - unfold ivs_from. intros H. split; apply iv_word; congruence.
  - intros [H1 H2].
    assert (G : forall r r', (r mod 32768 = r' mod 32768)%N ->
      (r mod 32 = r' mod 32 /\ r / 32 mod 32 = r' / 32 mod 32 /\ r / 1024 mod 32 = r' / 1024 mod 32)%N).
    { clear. intros r r' H. rewrite (word_of_iv r), (word_of_iv r') in H.
      apply digits in H; [exact H|..]; apply N.mod_lt; discriminate. }
    unfold ivs_from.
    destruct (G _ _ H1) as [-> [-> ->]]. destruct (G _ _ H2) as [-> [-> ->]]. reflexivity.
Qed.

(** Seeds s and s + 2^31 give the same IVs. *)
Lemma low_top s : low (s + 2 ^ 31) = low s.
Proof.
  unfold low. rewrite N2Z.inj_add. change (z (2 ^ 31)) with (1 * M). apply Z.mod_add. discriminate.
Qed.
Lemma spread_low gap j s s' : low s = low s' -> spread gap j s = spread gap j s'.
Proof.
  intros H. unfold spread. apply ivs_words. rewrite !rand_state.
  split; apply N2Z.inj; rewrite <- !low_div; now rewrite (low_steps _ s s' H).
Qed.
Lemma spread_top gap j s : spread gap j (s + 2 ^ 31) = spread gap j s.
Proof. apply spread_low, low_top. Qed.

(** ** At most three states in a half *)
Definition in_window (d : Z) : Prop := -65536 < d < 65536.

(** Methods 1 and 2: differences of states with equal IVs. *)
Lemma short1 d e q : in_window d -> in_window e -> e = 1103515245 * d + M * q ->
  d = 0 \/ 24884 <= d \/ d <= -24884.
Proof.
  unfold in_window. intros D E H.
  assert (I : 50396 * d + 24884 * e = M * (12787 * d + 24884 * q)) by (subst e; ring).
  assert (K : 32471 * d - 26579 * e = M * (- 13658 * d - 26579 * q)) by (subst e; ring).
  set (i := 12787 * d + 24884 * q) in *. set (k := - 13658 * d - 26579 * q) in *. clearbody i k. clear H q.
  assert (-2 <= i <= 2) by lia. assert (-1 <= k <= 1) by lia.
  assert (d = 26579 * i + 24884 * k) by lia. assert (e = 32471 * i - 50396 * k) by lia.
  clear I K. lia.
Qed.
(** Method 4. *)
Lemma short2 d e q : in_window d -> in_window e -> e = 1117952617 * d + M * q ->
  exists i k, d = 14985 * i + 54014 * k /\ (k = 0 /\ -2 <= i <= 2 \/ i = 0 /\ -1 <= k <= 1).
Proof.
  unfold in_window. intros D E H.
  assert (I : 43474 * d + 54014 * e = M * (28119 * d + 54014 * q)) by (subst e; ring).
  assert (K : 27697 * d - 14985 * e = M * (- 7801 * d - 14985 * q)) by (subst e; ring).
  set (i := 28119 * d + 54014 * q) in *. set (k := - 7801 * d - 14985 * q) in *. clearbody i k. clear H q.
  exists i, k.
  assert (-2 <= i <= 2) by lia. assert (-1 <= k <= 1) by lia.
  assert (d = 14985 * i + 54014 * k) by lia. assert (e = 27697 * i - 43474 * k) by lia.
  clear I K. split; [assumption|]. lia.
Qed.

(** Four states whose differences are such vectors. *)
Lemma four1 a b c d w : w <= a < w + 65536 -> w <= b < w + 65536 -> w <= c < w + 65536 -> w <= d < w + 65536 ->
  (forall x y, In x [a; b; c; d] -> In y [a; b; c; d] -> x - y = 0 \/ 24884 <= x - y \/ x - y <= -24884) ->
  a <> b -> a <> c -> a <> d -> b <> c -> b <> d -> c <> d -> False.
Proof.
  intros A B C D H ab ac ad bc bd cd. cbn [In] in H.
  pose proof (H a b ltac:(auto) ltac:(auto)). pose proof (H a c ltac:(auto) ltac:(auto)).
  pose proof (H a d ltac:(auto) ltac:(auto)). pose proof (H b c ltac:(auto) ltac:(auto)).
  pose proof (H b d ltac:(auto) ltac:(auto)). pose proof (H c d ltac:(auto) ltac:(auto)).
  clear H. lia.
Qed.
Lemma four2 a b c d :
  (forall x y, In x [a; b; c; d] -> In y [a; b; c; d] ->
     exists i k, x - y = 14985 * i + 54014 * k /\ (k = 0 /\ -2 <= i <= 2 \/ i = 0 /\ -1 <= k <= 1)) ->
  a <> b -> a <> c -> a <> d -> b <> c -> b <> d -> c <> d -> False.
Proof.
  intros H ab ac ad bc bd cd. cbn [In] in H.
  set (S := [0; 14985; 29970; 54014; -14985; -29970; -54014]).
  assert (G : forall x y, (a = x \/ b = x \/ c = x \/ d = x \/ False) -> (a = y \/ b = y \/ c = y \/ d = y \/ False) ->
    exists t, x - y = t /\ In t S).
  { intros x y Hx Hy. destruct (H x y Hx Hy) as [i [k [E R]]]. exists (x - y). split; [reflexivity|].
    unfold S. cbn [In]. clear - E R. lia. }
  clear H.
  destruct (G b a ltac:(auto) ltac:(auto)) as [t1 [E1 H1]]. destruct (G c a ltac:(auto) ltac:(auto)) as [t2 [E2 H2]].
  destruct (G d a ltac:(auto) ltac:(auto)) as [t3 [E3 H3]]. destruct (G c b ltac:(auto) ltac:(auto)) as [t4 [E4 H4]].
  destruct (G d b ltac:(auto) ltac:(auto)) as [t5 [E5 H5]]. destruct (G d c ltac:(auto) ltac:(auto)) as [t6 [E6 H6]].
  clear G.
  assert (F4 : t4 = t2 - t1) by (clear - E1 E2 E4; lia). assert (F5 : t5 = t3 - t1) by (clear - E1 E3 E5; lia).
  assert (F6 : t6 = t3 - t2) by (clear - E2 E3 E6; lia).
  assert (N1 : t1 <> 0) by (clear - E1 ab; lia). assert (N2 : t2 <> 0) by (clear - E2 ac; lia).
  assert (N3 : t3 <> 0) by (clear - E3 ad; lia). assert (N4 : t4 <> 0) by (clear - E4 bc; lia).
  assert (N5 : t5 <> 0) by (clear - E5 bd; lia). assert (N6 : t6 <> 0) by (clear - E6 cd; lia).
  clear E1 E2 E3 E4 E5 E6 ab ac ad bc bd cd.
  assert (K : forall t, In t S -> existsb (Z.eqb t) S = true).
  { intros t Ht. apply existsb_exists. exists t. split; [exact Ht|apply Z.eqb_refl]. }
  apply K in H4, H5, H6. clear K. subst t4 t5 t6. unfold S in *. cbn [In] in H1, H2, H3.
  destruct H1 as [<-|[<-|[<-|[<-|[<-|[<-|[<-|[]]]]]]]]; try congruence;
  destruct H2 as [<-|[<-|[<-|[<-|[<-|[<-|[<-|[]]]]]]]]; try discriminate H4; try congruence;
  destruct H3 as [<-|[<-|[<-|[<-|[<-|[<-|[<-|[]]]]]]]]; try discriminate H5; try discriminate H6;
    first [apply N1; reflexivity|apply N2; reflexivity|apply N3; reflexivity|apply N4; reflexivity
          |apply N5; reflexivity|apply N6; reflexivity].
Qed.

(** One half of the seeds: those with the same top bit in the state behind the first rand. *)
Lemma three_in_half gap j top l ivs : gap = 1%N \/ gap = 2%N -> NoDup l ->
  (forall s, In s l -> (s < 2 ^ 32)%N /\ spread gap j s = ivs /\ (2 ^ 31 <=? steps j s)%N = top) ->
  (length l <= 3)%nat.
Proof.
  intros Hg D H.
  destruct l as [|a [|b [|c [|d l]]]]; cbn [length]; try lia. exfalso.
  set (L := a :: b :: c :: d :: l) in *. set (f := fun s => low (steps j s)).
  assert (S1 : forall s, (s < 2 ^ 32)%N -> z (steps j s) = f s + M * (if (2 ^ 31 <=? steps j s)%N then 1 else 0)).
  { intros s Hs. unfold f, low. pose proof (steps_lt j s Hs) as B. set (x := steps j s) in *.
    change (2 ^ 32)%N with 4294967296%N in B. change (2 ^ 31)%N with 2147483648%N.
    destruct (N.leb_spec 2147483648 x) as [C|C].
    - replace (z x) with (z x - M + 1 * M) at 2 by ring. rewrite Z.mod_add, Z.mod_small; lia.
    - rewrite Z.mod_small; lia. }
  assert (INJ : forall k s s', (s < 2 ^ 32)%N -> (s' < 2 ^ 32)%N -> steps k s = steps k s' -> s = s').
  { induction k as [|k IH] using N.peano_ind; intros s s' Hs Hs' E; [exact E|].
    rewrite <- N.add_1_r, !next_state in E. apply poke_inj in E; [|now apply steps_lt|now apply steps_lt]. auto. }
  assert (P : forall x y, In x L -> In y L -> x <> y -> f x <> f y).
  { intros x y Hx Hy Hn E. destruct (H x Hx) as [Lx [_ Tx]]. destruct (H y Hy) as [Ly [_ Ty]].
    apply Hn. apply (INJ j); try assumption. apply N2Z.inj. rewrite (S1 x Lx), (S1 y Ly), Tx, Ty. lia. }
  assert (W : forall x y, In x L -> In y L ->
    f x / 65536 = f y / 65536 /\ Z.abs (f x - f y) < 65536 /\ Z.abs (low (steps (j + gap) x) - low (steps (j + gap) y)) < 65536).
  { intros x y Hx Hy. destruct (H x Hx) as [_ [Sx _]]. destruct (H y Hy) as [_ [Sy _]].
    assert (E : spread gap j x = spread gap j y) by congruence.
    apply ivs_words in E. destruct E as [E1 E2]. rewrite !rand_state in E1, E2.
    split; [unfold f; rewrite !low_div; now rewrite E1|]. split; apply low_close; assumption. }
  inversion D as [|? ? Da D1]; subst. inversion D1 as [|? ? Db D2]; subst.
  inversion D2 as [|? ? Dc D3]; subst. cbn [In] in Da, Db, Dc.
  assert (Ia : In a L) by (cbn [L In]; auto). assert (Ib : In b L) by (cbn [L In]; auto).
  assert (Ic : In c L) by (cbn [L In]; auto). assert (Id : In d L) by (cbn [L In]; auto).
  assert (ab : f a <> f b) by (apply P; auto; intros ->; apply Da; auto).
  assert (ac : f a <> f c) by (apply P; auto; intros ->; apply Da; auto).
  assert (ad : f a <> f d) by (apply P; auto; intros ->; apply Da; auto).
  assert (bc : f b <> f c) by (apply P; auto; intros ->; apply Db; auto).
  assert (bd : f b <> f d) by (apply P; auto; intros ->; apply Db; auto).
  assert (cd : f c <> f d) by (apply P; auto; intros ->; apply Dc; auto).
  destruct Hg as [-> | ->].
  - assert (WIN : forall x, In x L -> 65536 * (f a / 65536) <= f x < 65536 * (f a / 65536) + 65536).
    { intros x Hx. destruct (W a x Ia Hx) as [E _]. rewrite E.
      pose proof (Z.div_mod (f x) 65536 ltac:(discriminate)). pose proof (Z.mod_pos_bound (f x) 65536 eq_refl).
      clear - H0 H1. lia. }
    apply (four1 (f a) (f b) (f c) (f d) (65536 * (f a / 65536))); auto.
    assert (G : forall x y, In x L -> In y L -> f x - f y = 0 \/ 24884 <= f x - f y \/ f x - f y <= -24884).
    { intros x y Hx Hy. destruct (W x y Hx Hy) as [_ [E1 E2]]. rewrite !next_state in E2.
      destruct (low_next (steps j x) (steps j y)) as [q Q].
      apply (short1 (f x - f y) (low (poke (steps j x)) - low (poke (steps j y))) q); unfold in_window;
        [clear - E1; lia|clear - E2; lia|exact Q]. }
    intros x y Hx Hy. cbn [In] in Hx, Hy.
    destruct Hx as [<-|[<-|[<-|[<-|[]]]]]; destruct Hy as [<-|[<-|[<-|[<-|[]]]]]; apply G; assumption.
  - apply (four2 (f a) (f b) (f c) (f d)); auto.
    assert (G : forall x y, In x L -> In y L -> exists i k, f x - f y = 14985 * i + 54014 * k /\
      (k = 0 /\ -2 <= i <= 2 \/ i = 0 /\ -1 <= k <= 1)).
    { intros x y Hx Hy. destruct (W x y Hx Hy) as [_ [E1 E2]]. rewrite !next_state2 in E2.
      destruct (low_next (steps j x) (steps j y)) as [q Q].
      destruct (low_next (poke (steps j x)) (poke (steps j y))) as [q2 Q2].
      apply (short2 (f x - f y) (low (poke (poke (steps j x))) - low (poke (poke (steps j y))))
               (567057121 * (f x - f y) + 1103515245 * q + q2)); unfold in_window;
        [clear - E1; lia|clear - E2; lia|]. rewrite Q2, Q. unfold f. ring. }
    intros x y Hx Hy. cbn [In] in Hx, Hy.
    destruct Hx as [<-|[<-|[<-|[<-|[]]]]]; destruct Hy as [<-|[<-|[<-|[<-|[]]]]]; apply G; assumption.
Qed.

Lemma filter_lengths {A} (p : A -> bool) l :
  length l = (length (filter p l) + length (filter (fun x => negb (p x)) l))%nat.
Proof. induction l as [|x l IH]; [reflexivity|]. cbn. destruct (p x); cbn; lia. Qed.

Lemma six_seeds gap j l ivs : gap = 1%N \/ gap = 2%N -> NoDup l ->
  (forall s, In s l -> (s < 2 ^ 32)%N /\ spread gap j s = ivs) -> (length l <= 6)%nat.
Proof.
  intros Hg D H. set (p := fun s => (2 ^ 31 <=? steps j s)%N).
  rewrite (filter_lengths p l).
  assert (length (filter p l) <= 3)%nat.
  { apply (three_in_half gap j true _ ivs Hg); [now apply NoDup_filter|].
    intros s Hs. apply filter_In in Hs. destruct Hs as [Hs T]. destruct (H s Hs) as [A B]. auto. }
  assert (length (filter (fun x => negb (p x)) l) <= 3)%nat.
  { apply (three_in_half gap j false _ ivs Hg); [now apply NoDup_filter|].
    intros s Hs. apply filter_In in Hs. destruct Hs as [Hs T]. destruct (H s Hs) as [A B].
    apply negb_true_iff in T. auto. }
  lia.
Qed.

(** ** Every spread occurs *)

(** From [x], the position 1103515245 x - y modulo 2^31 falls by 50396 or 32471. *)
Lemma descend y : forall n x q, 0 <= x < 65536 -> 0 <= 1103515245 * x - y + M * q <= Z.of_nat n ->
  exists x' q', 0 <= x' < 65536 /\ 0 <= 1103515245 * x' - y + M * q' < 65536.
Proof.
  induction n as [|n IH]; intros x q Hx Hg; [exists x, q; lia|].
  destruct (Z.lt_ge_cases (1103515245 * x - y + M * q) 65536) as [C|C]; [exists x, q; lia|].
  destruct (Z.lt_ge_cases (x + 24884) 65536) as [V|V].
  - apply (IH (x + 24884) (q - 12787)); lia.
  - apply (IH (x - 26579) (q + 13658)); lia.
Qed.
Lemma hit y : exists x q, 0 <= x < 65536 /\ 0 <= 1103515245 * x - y + M * q < 65536.
Proof.
  apply (descend y (Z.to_nat ((- y) mod M)) 0 (- ((- y) / M))); [lia|].
  pose proof (Z.mod_pos_bound (- y) M eq_refl). rewrite Z2Nat.id by lia.
  pose proof (Z.div_mod (- y) M ltac:(discriminate)). lia.
Qed.

Lemma poke_onto x : (x < 2 ^ 32)%N -> exists s, (s < 2 ^ 32)%N /\ poke s = x.
Proof.
  intros H. change (2 ^ 32)%N with 4294967296%N in *. set (s := lcg 32 0xEEB9EB65 0xA3561A1 x).
  exists s. split; [unfold s, lcg; apply N.mod_lt; discriminate|].
  apply N2Z.inj. rewrite poke_Z. unfold s, lcg. rewrite N2Z.inj_mod, N2Z.inj_add, N2Z.inj_mul.
  change (z (2 ^ 32)) with 4294967296.
  change (z 1103515245) with 1103515245. change (z 24691) with 24691.
  change (z 4005161829) with 4005161829. change (z 171270561) with 171270561.
  rewrite Z.mul_comm, <- Zplus_mod_idemp_l, Zmult_mod_idemp_r, Zplus_mod_idemp_l.
  replace (1103515245 * (4005161829 * z x + 171270561) + 24691)
    with (z x + (1029054899 * z x + 44004916) * 4294967296) by ring.
  rewrite Z.mod_add by discriminate. apply Z.mod_small. lia.
Qed.
Lemma steps_onto k : forall x, (x < 2 ^ 32)%N -> exists s, (s < 2 ^ 32)%N /\ steps k s = x.
Proof.
  induction k as [|k IH] using N.peano_ind; intros x H; [exists x; auto|].
  destruct (poke_onto x H) as [t [Ht E]]. destruct (IH t Ht) as [s [Hs F]].
  exists s. split; [exact Hs|]. rewrite <- N.add_1_r, next_state. now rewrite F.
Qed.

Lemma ivs_as_words ivs : ivs_ok ivs -> exists r1 r2, (r1 < 32768 /\ r2 < 32768)%N /\ ivs = ivs_from r1 r2.
Proof.
  intros [L F]. destruct ivs as [|a [|b [|c [|d [|e [|f [|? ?]]]]]]]; try discriminate L.
  rewrite !Forall_cons_iff in F. destruct F as [A [B [C [D [E [G _]]]]]].
  exists (a + 32 * b + 1024 * c)%N, (f + 32 * d + 1024 * e)%N. split; [lia|].
  assert (K : forall u v w, (u < 32 -> v < 32 -> w < 32 ->
    (u + 32 * v + 1024 * w) mod 32 = u /\ (u + 32 * v + 1024 * w) / 32 mod 32 = v /\ (u + 32 * v + 1024 * w) / 1024 mod 32 = w)%N).
  { clear. intros u v w U V W. repeat split.
    - replace (u + 32 * v + 1024 * w)%N with (u + (v + 32 * w) * 32)%N by ring. rewrite N.mod_add by discriminate.
      now apply N.mod_small.
    - replace (u + 32 * v + 1024 * w)%N with (u + (v + 32 * w) * 32)%N by ring. rewrite N.div_add by discriminate.
      rewrite N.div_small by assumption. replace (0 + (v + 32 * w))%N with (v + w * 32)%N by ring.
      rewrite N.mod_add by discriminate. now apply N.mod_small.
    - replace (u + 32 * v + 1024 * w)%N with ((u + 32 * v) + w * 1024)%N by ring. rewrite N.div_add by discriminate.
      rewrite N.div_small by lia. now apply N.mod_small. }
  unfold ivs_from. destruct (K a b c A B C) as [-> [-> ->]]. destruct (K f d e G D E) as [-> [-> ->]]. reflexivity.
Qed.

Lemma every_spread j ivs : ivs_ok ivs -> exists s, (s < 2 ^ 31)%N /\ spread 1 j s = ivs.
Proof.
  intros H. destruct (ivs_as_words ivs H) as [r1 [r2 [[H1 H2] ->]]].
  destruct (hit (65536 * z r2 - 1103515245 * (65536 * z r1) - 24691)) as [x [q [Hx Hg]]].
  set (t := Z.to_N (65536 * z r1 + x)).
  assert (Tz : z t = 65536 * z r1 + x) by (unfold t; rewrite Z2N.id; lia).
  assert (Tl : low t = z t) by (unfold low; apply Z.mod_small; lia).
  destruct (steps_onto j t ltac:(change (2 ^ 32)%N with 4294967296%N; lia)) as [s0 [Hs E]].
  assert (S0 : spread 1 j s0 = ivs_from r1 r2).
  { unfold spread. apply ivs_words. rewrite !rand_state, next_state, E.
    split; apply N2Z.inj; rewrite <- low_div.
    - rewrite Tl, Tz, Z.mul_comm, Z.div_add_l, (Z.div_small x) by lia.
      rewrite N.mod_small by assumption. lia.
    - rewrite low_poke, Tl, Tz.
      replace (1103515245 * (65536 * z r1 + x) + 24691)
        with (65536 * z r2 + (1103515245 * x - (65536 * z r2 - 1103515245 * (65536 * z r1) - 24691) + M * q) + (- q) * M) by ring.
      set (g := 1103515245 * x - (65536 * z r2 - 1103515245 * (65536 * z r1) - 24691) + M * q) in *.
      rewrite Z.mod_add, Z.mod_small by lia.
      rewrite Z.mul_comm, Z.div_add_l, (Z.div_small g) by lia.
      rewrite N.mod_small by assumption. lia. }
  change (2 ^ 32)%N with 4294967296%N in Hs. change (2 ^ 31)%N with 2147483648%N.
  destruct (N.lt_ge_cases s0 2147483648) as [C|C]; [exists s0; auto|].
  exists (s0 - 2147483648)%N. split; [lia|]. rewrite <- S0. symmetry.
  replace s0 with (s0 - 2147483648 + 2 ^ 31)%N at 1 by (change (2 ^ 31)%N with 2147483648%N; lia).
  apply spread_top.
Qed.

(** ** A spread that Method 4 never gives *)
Lemma no_such_spread j s : spread 2 j s <> [0; 0; 0; 0; 0; 26]%N.
Proof.
  change [0; 0; 0; 0; 0; 26]%N with (ivs_from 0 26). intros E. unfold spread in E. apply ivs_words in E.
  rewrite !rand_state, next_state2 in E. set (t := steps j s) in *. destruct E as [E1 E2].
  assert (F1 : low t / 65536 = 0) by (rewrite low_div, E1; reflexivity).
  assert (F2 : low (poke (poke t)) / 65536 = 26) by (rewrite low_div, E2; reflexivity).
  rewrite !low_poke in F2. rewrite <- Zplus_mod_idemp_l, Zmult_mod_idemp_r, Zplus_mod_idemp_l in F2.
  set (x := low t) in *.
  replace (1103515245 * (1103515245 * x + 24691) + 24691) with (1117952617 * x + 1769896810 + (567057121 * x + 12687) * M) in F2 by ring.
  rewrite Z.mod_add in F2 by discriminate.
  set (w := 1117952617 * x + 1769896810) in *.
  pose proof (Z.div_mod x 65536 ltac:(discriminate)). pose proof (Z.mod_pos_bound x 65536 eq_refl).
  pose proof (Z.div_mod (w mod M) 65536 ltac:(discriminate)). pose proof (Z.mod_pos_bound (w mod M) 65536 eq_refl).
  pose proof (Z.div_mod w M ltac:(discriminate)).
  set (q := w / M) in *. set (e := w mod M) in *.
  assert (X : 0 <= x < 65536) by lia. assert (Y : 26 * 65536 <= e < 27 * 65536) by lia.
  assert (Q : e = 1117952617 * x + 1769896810 - M * q) by (unfold w in *; lia).
  clearbody q e. clear - X Y Q.
  assert (I : 43474 * x + 54014 * e = 54014 * 1769896810 + M * (28119 * x - 54014 * q)) by (subst e; ring).
  assert (K : 27697 * x - 14985 * e = - 14985 * 1769896810 + M * (- 7801 * x + 14985 * q)) by (subst e; ring).
  set (i := 28119 * x - 54014 * q) in *. set (k := - 7801 * x + 14985 * q) in *. clearbody i k. clear Q q. lia.
Qed.

(** ** Generated states *)
Lemma generated_spread fuel junk g seed delay initial max area l :
  length junk = 6%nat -> setting_ok g area ->
  (seed < 2^32)%N -> (initial + delay < 2^32)%N -> (initial + max <= 2^32)%N ->
  wild_generate fuel junk g seed delay initial max area = Ok l ->
  forall i st, nth_error l (N.to_nat i) = Some st ->
  let gap := if (w_method g =? Method_METHOD_4)%N then 2%N else 1%N in
  exists p, spread gap (initial + i + delay + p) seed = g_ivs st.
Proof.
  intros Hj Hset Hs Hd Hm H i st Hi gap.
  destruct (generate_states _ _ _ _ _ _ _ _ _ Hj Hset Hs Hd Hm H i st Hi) as [mods [d [_ [Hdr [Hst _]]]]].
  destruct Hst as [_ [Ep [_ [_ [_ [Ei _]]]]]].
  destruct Hdr as [_ [p1 [p2 [p3 [p4 [_ [_ [_ [_ [_ [_ [_ [Dp [_ Di]]]]]]]]]]]]]].
  set (p := (d_first d + 2 * d_tries d)%N) in *.
  fold (steps (initial + i + delay) seed) in Di.
  rewrite Ei, Di. rewrite !rand_at_steps. unfold iv2_pos.
  exists (iv1_pos g (p + 2)). unfold spread. f_equal; f_equal; unfold gap; lia.
Qed.
