(** Lemmas for Properties/P_Stream.v. *)
From Coq Require Import NArith ZArith List Bool Lia.
From Coq Require Import ZifyBool ZifyNat ZifyN.
From Verif Require Import Base.Word Base.WordLemmas Model.Lcrng32 Model.Lcrng64 Model.LcrngObject Model.Xorshift Model.Xoroshiro.
From Verif Require Import Spec.LcrngSpec Spec.XorshiftSpec Spec.ModesSpec Spec.StreamSpec.
From Verif Require Import Proofs.Lcrng32Proofs Proofs.Lcrng64Proofs Proofs.LcrngFinal.
From Verif Require Import Proofs.XorshiftProofs Proofs.XorshiftRange Proofs.XoroshiroProofs Proofs.XorshiftFinal.
Import ListNotations.
Open Scope N_scope.
Ltac Zify.zify_post_hook ::= idtac.

(** ** LCRNG *)
Lemma steps_lt w a c n s : s < 2^w -> lcg_steps w a c n s < 2^w.
Proof.
  intros H. unfold lcg_steps. apply Niter_inv; [|exact H]. intros y _. unfold lcg. apply N.mod_lt, N.pow_nonzero. discriminate.
Qed.
Lemma steps_1 w a c n s : lcg w a c (lcg_steps w a c n s) = lcg_steps w a c (n + 1) s.
Proof. unfold lcg_steps. rewrite N.add_1_r. now rewrite Niter_succ. Qed.
Lemma steps_add w a c n k s : lcg_steps w a c k (lcg_steps w a c n s) = lcg_steps w a c (n + k) s.
Proof. unfold lcg_steps. rewrite N.add_comm. now rewrite Niter_add. Qed.
Lemma half_32 add mult x : lcrng32_next_u16 add mult x = (lcg 32 mult add x, lcg 32 mult add x / 2^16).
Proof. rewrite next_u16_ok. now rewrite lcrng32_next_spec. Qed.
Lemma half_64 add mult x : lcrng64_next_u32 add mult x = (lcg 64 mult add x, lcg 64 mult add x / 2^32).
Proof. rewrite next_u32_ok. now rewrite lcrng64_next_spec. Qed.

Section L32.
  Variables (m : mode) (d : dist32) (add mult : N).
  Let cur := lcrng_cursor 32 mult add (rand_of_16 d).
  Let pos := under 32 mult add.
  Lemma rand_32 x mx : lcrng32_valid d (LRand mx) ->
    lcrng32_next_rand m d add mult x mx = (lcg 32 mult add x, Ok (rand_of_16 d (lcg 32 mult add x / 2^16) mx)).
  Proof.
    intros V. cbn in V. destruct d; try contradiction.
    - destruct (c06_modulo m add mult x mx V) as (v & E & -> & _). exact E.
    - destruct (c06_reciprocal m add mult x mx V) as (v & E & -> & _). exact E.
  Qed.
  Lemma call_32 c op : fst c < 2^32 -> lcrng32_valid d op ->
    fst (fst (cur c op)) < 2^32 /\
    lcrng32_call m d add mult (pos c) op = (pos (fst (cur c op)), snd (cur c op)).
  Proof.
    destruct c as [s k]. cbn [fst]. intros H V.
    assert (P : lcg_steps 32 mult add k s < 2^32) by now apply steps_lt.
    unfold cur, pos, under.
    destruct op as [| |mx|n|n|n|mx|s']; cbn [lcrng_cursor lcrng32_call fst snd lcrng32_valid] in *.
    - split; [exact H|]. rewrite lcrng32_next_spec, steps_1. reflexivity.
    - split; [exact H|]. rewrite half_32, steps_1. reflexivity.
    - split; [exact H|]. rewrite rand_32 by exact V. rewrite steps_1. reflexivity.
    - split; [exact H|]. destruct (c01_32 add mult (lcg_steps 32 mult add k s) n P V) as (_ & _ & ->).
      now rewrite steps_add.
    - split; [exact H|]. destruct (c01_32 add mult (lcg_steps 32 mult add k s) n P V) as (-> & _).
      now rewrite steps_add.
    - split; [exact H|]. destruct (c02_32 add mult n V) as (f & -> & J). destruct (J _ P) as (-> & _).
      now rewrite steps_add.
    - split; [exact H|]. pose proof (c07_32 m d add mult mx) as J. pose proof (rand_32 (lcg_steps 32 mult add k s) mx V) as R.
      destruct (lcrng32_const_rand m d add mult mx) as [f|e].
      + rewrite J, R, steps_1. reflexivity.
      + rewrite J in R. discriminate R.
    - split; [apply N.mod_lt; discriminate|]. reflexivity.
  Qed.
  Lemma run_32 ops : forall c, fst c < 2^32 -> Forall (lcrng32_valid d) ops ->
    lcrng32_calls m d add mult (pos c) ops =
      (pos (fst (lcrng_cursor_run 32 mult add (rand_of_16 d) c ops)), snd (lcrng_cursor_run 32 mult add (rand_of_16 d) c ops)).
  Proof.
    induction ops as [|op t IH]; intros c H F; [reflexivity|]. inversion F; subst.
    cbn [lcrng32_calls lcrng_cursor_run]. destruct (call_32 c op) as (L & ->); try assumption. fold cur.
    destruct (cur c op) as [c' o]. cbn [fst snd] in *. rewrite IH by assumption.
    now destruct (lcrng_cursor_run 32 mult add (rand_of_16 d) c' t).
  Qed.
  Lemma stream_32 seed ops : Forall (lcrng32_valid d) ops ->
    let r := lcrng_cursor_run 32 mult add (rand_of_16 d) (seed mod 2^32, 0) ops in
    lcrng32_calls m d add mult (lcrng32_new seed) ops = (under 32 mult add (fst r), snd r).
  Proof. intros F. apply (run_32 ops (seed mod 2^32, 0)); [apply N.mod_lt; discriminate|exact F]. Qed.
End L32.

Section L64.
  Variables (d : dist64) (add mult : N).
  Let cur := lcrng_cursor 64 mult add rand_of_32.
  Let pos := under 64 mult add.
  Lemma rand_64 x mx : lcrng64_valid d (LRand mx) ->
    lcrng64_next_rand d add mult x mx = (lcg 64 mult add x, Ok (rand_of_32 (lcg 64 mult add x / 2^32) mx)).
  Proof.
    intros V. cbn in V. destruct d; try contradiction.
    destruct (c06_mulshift add mult x mx V) as (v & E & -> & _). exact E.
  Qed.
  Lemma call_64 c op : fst c < 2^64 -> lcrng64_valid d op ->
    fst (fst (cur c op)) < 2^64 /\
    lcrng64_call d add mult (pos c) op = (pos (fst (cur c op)), snd (cur c op)).
  Proof.
    destruct c as [s k]. cbn [fst]. intros H V.
    assert (P : lcg_steps 64 mult add k s < 2^64) by now apply steps_lt.
    unfold cur, pos, under.
    destruct op as [| |mx|n|n|n|mx|s']; cbn [lcrng_cursor lcrng64_call fst snd lcrng64_valid] in *.
    - split; [exact H|]. rewrite lcrng64_next_spec, steps_1. reflexivity.
    - split; [exact H|]. rewrite half_64, steps_1. reflexivity.
    - split; [exact H|]. rewrite rand_64 by exact V. rewrite steps_1. reflexivity.
    - split; [exact H|]. destruct (c01_64 add mult (lcg_steps 64 mult add k s) n P V) as (_ & _ & ->).
      now rewrite steps_add.
    - split; [exact H|]. destruct (c01_64 add mult (lcg_steps 64 mult add k s) n P V) as (-> & _).
      now rewrite steps_add.
    - split; [exact H|]. destruct (c02_64 add mult n V) as (f & -> & J). destruct (J _ P) as (-> & _).
      now rewrite steps_add.
    - split; [exact H|]. pose proof (c07_64 d add mult mx) as J. pose proof (rand_64 (lcg_steps 64 mult add k s) mx V) as R.
      destruct (lcrng64_const_rand d add mult mx) as [f|e].
      + rewrite J, R, steps_1. reflexivity.
      + rewrite J in R. discriminate R.
    - split; [apply N.mod_lt; discriminate|]. reflexivity.
  Qed.
  Lemma run_64 ops : forall c, fst c < 2^64 -> Forall (lcrng64_valid d) ops ->
    lcrng64_calls d add mult (pos c) ops =
      (pos (fst (lcrng_cursor_run 64 mult add rand_of_32 c ops)), snd (lcrng_cursor_run 64 mult add rand_of_32 c ops)).
  Proof.
    induction ops as [|op t IH]; intros c H F; [reflexivity|]. inversion F; subst.
    cbn [lcrng64_calls lcrng_cursor_run]. destruct (call_64 c op) as (L & ->); try assumption. fold cur.
    destruct (cur c op) as [c' o]. cbn [fst snd] in *. rewrite IH by assumption.
    now destruct (lcrng_cursor_run 64 mult add rand_of_32 c' t).
  Qed.
  Lemma stream_64 seed ops : Forall (lcrng64_valid d) ops ->
    let r := lcrng_cursor_run 64 mult add rand_of_32 (seed mod 2^64, 0) ops in
    lcrng64_calls d add mult (lcrng64_new seed) ops = (under 64 mult add (fst r), snd r).
  Proof. intros F. apply (run_64 ops (seed mod 2^64, 0)); [apply N.mod_lt; discriminate|exact F]. Qed.
End L64.

(** ** Orbits numbered by the integers *)
Section Orbit.
  Context {A : Type} (P : A -> Prop) (f g : A -> A).
  Definition orbit (s : A) (i : Z) : A :=
    match i with Z0 => s | Zpos p => Pos.iter f s p | Zneg p => Pos.iter g s p end.
  Lemma orbit_P s i : (forall x, P x -> P (f x)) -> (forall x, P x -> P (g x)) -> P s -> P (orbit s i).
  Proof. intros Pf Pg H. destruct i as [|p|p]; cbn [orbit]; [exact H| |]; apply Pos.iter_invariant; auto. Qed.
  Lemma orbit_step s i : (forall x, P x -> P (g x)) -> (forall x, P x -> f (g x) = x) -> P s ->
    orbit s (i + 1) = f (orbit s i).
  Proof.
    intros Pg fg H. destruct i as [|p|p].
    - reflexivity.
    - change (Z.pos p + 1)%Z with (Z.pos (p + 1)). cbn [orbit]. rewrite Pos.add_1_r. apply Pos.iter_succ.
    - destruct (Pos.eq_dec p 1) as [->|N1].
      + cbn. now rewrite fg.
      + rewrite <- (Pos.succ_pred p N1). set (q := Pos.pred p).
        replace (Z.neg (Pos.succ q) + 1)%Z with (Z.neg q) by lia. cbn [orbit].
        rewrite Pos.iter_succ. symmetry. apply fg. apply Pos.iter_invariant; auto.
  Qed.
  Lemma orbit_unique W : (forall x, P x -> g (f x) = x) -> 
    (forall i, P (W i) /\ W (i + 1)%Z = f (W i)) -> forall i, W i = orbit (W 0%Z) i.
  Proof.
    intros gf H. assert (B : forall i, W (i - 1)%Z = g (W i)).
    { intros i. destruct (H (i - 1)%Z) as (Q & E). replace (i - 1 + 1)%Z with i in E by lia.
      rewrite E. symmetry. now apply gf. }
    intros [|p|p]; [reflexivity| |].
    - induction p as [|p IH] using Pos.peano_ind.
      + cbn. apply (proj2 (H 0%Z)).
      + replace (Z.pos (Pos.succ p)) with (Z.pos p + 1)%Z at 1 by lia. rewrite (proj2 (H _)), IH. cbn [orbit].
        symmetry. apply Pos.iter_succ.
    - induction p as [|p IH] using Pos.peano_ind.
      + cbn. apply (B 0%Z).
      + replace (Z.neg (Pos.succ p)) with (Z.neg p - 1)%Z at 1 by lia. rewrite B, IH. cbn [orbit].
        symmetry. apply Pos.iter_succ.
  Qed.
  Lemma orbit_add W n : (forall i, P (W i) /\ W (i + 1)%Z = f (W i)) -> forall i,
    W (i + Z.of_N n)%Z = N.iter n f (W i).
  Proof.
    intros H. induction n as [|n IH] using N.peano_ind; intros i.
    - now rewrite Z.add_0_r.
    - rewrite Niter_succ, <- IH, <- (proj2 (H _)). f_equal. lia.
  Qed.
End Orbit.

(** ** Xorshift128 *)
Section X128.
  Let f (st : list N) := fst (xs_next NumPy st).
  Let g (st : list N) := fst (xs_previous NumPy st).
  Lemma xfg st : xs_words st -> f (g st) = st.
  Proof. intros H. unfold f, g. now rewrite (proj2 (xs_next_previous NumPy st H)). Qed.
  Lemma xgf st : xs_words st -> g (f st) = st.
  Proof. intros H. unfold f, g. now rewrite (xs_previous_next NumPy st H). Qed.
  Lemma xPg st : xs_words st -> xs_words (g st).
  Proof. intros H. apply (proj1 (xs_next_previous NumPy st H)). Qed.
  Lemma xPf st : xs_words st -> xs_words (f st).
  Proof. intros H. now apply xs_words_next. Qed.

  Lemma window_words x i : xorshift_stream x -> xs_words (xs_window (x, i)).
  Proof. intros H. eexists _, _, _, _. split; [reflexivity|]. repeat split; apply H. Qed.
  Lemma window_next m x i : xorshift_stream x ->
    xs_next m (xs_window (x, i)) = (xs_window (x, i + 1)%Z, x (i + 4)%Z).
  Proof.
    intros H. unfold xs_window. rewrite xs_next_ref by apply H.
    replace (i + 1 + 1)%Z with (i + 2)%Z by lia. replace (i + 1 + 2)%Z with (i + 3)%Z by lia.
    replace (i + 1 + 3)%Z with (i + 4)%Z by lia. now rewrite (proj2 (H i)).
  Qed.
  Lemma window_orbit x : xorshift_stream x ->
    forall i, xs_words (xs_window (x, i)) /\ xs_window (x, i + 1)%Z = f (xs_window (x, i)).
  Proof. intros H i. split; [now apply window_words|]. unfold f. now rewrite window_next. Qed.

  Lemma stream_exists a b c d : exists x, xorshift_stream_of a b c d x.
  Proof.
    set (s := [a mod 2^32; b mod 2^32; c mod 2^32; d mod 2^32]).
    assert (Hs : xs_words s).
    { eexists _, _, _, _. split; [reflexivity|]. repeat split; apply N.mod_lt; discriminate. }
    set (o := orbit f g s).
    assert (Ho : forall i, xs_words (o i)) by (intros i; apply (orbit_P xs_words f g _ _ xPf xPg); exact Hs).
    assert (St : forall i, o (i + 1)%Z = f (o i)) by (intros i; apply (orbit_step xs_words f g _ _ xPg xfg); exact Hs).
    assert (Sh : forall i, exists x y z w, o i = [x; y; z; w] /\ (x < 2^32 /\ y < 2^32 /\ z < 2^32 /\ w < 2^32) /\
                                       o (i + 1)%Z = [y; z; w; xs_word x w]).
    { intros i. destruct (Ho i) as (x & y & z & w & E & Hx & Hy & Hz & Hw). exists x, y, z, w.
      split; [exact E|]. split; [auto|]. rewrite St, E. unfold f. now rewrite xs_next_ref. }
    exists (fun i => aget (o i) 0).
    assert (K : forall i, exists x y z w, aget (o i) 0 = x /\ x < 2^32 /\ aget (o (i + 1)%Z) 0 = y /\ aget (o (i + 2)%Z) 0 = z /\
        aget (o (i + 3)%Z) 0 = w /\ aget (o (i + 4)%Z) 0 = xs_word x w).
    { intros i. destruct (Sh i) as (x & y & z & w & E0 & (Hx & _) & E1).
      destruct (Sh (i + 1)%Z) as (x1 & y1 & z1 & w1 & F1 & _ & E2). replace (i + 1 + 1)%Z with (i + 2)%Z in E2 by lia.
      destruct (Sh (i + 2)%Z) as (x2 & y2 & z2 & w2 & F2 & _ & E3). replace (i + 2 + 1)%Z with (i + 3)%Z in E3 by lia.
      destruct (Sh (i + 3)%Z) as (x3 & y3 & z3 & w3 & F3 & _ & E4). replace (i + 3 + 1)%Z with (i + 4)%Z in E4 by lia.
      rewrite E1 in F1. injection F1 as <- <- <- <-. rewrite E2 in F2. injection F2 as <- <- <- <-.
      rewrite E3 in F3. injection F3 as <- <- <- <-.
      exists x, y, z, w. rewrite E0, E1, E2, E3, E4. cbn [aget nth]. auto 10. }
    split.
    - intros i. destruct (K i) as (x & y & z & w & E0 & Hx & _ & _ & E3 & E4). rewrite E0, E3, E4. auto.
    - pose proof (Sh 0%Z) as (x & y & z & w & E0 & _). pose proof (K 0%Z) as (x' & y' & z' & w' & Q0 & _ & Q1 & Q2 & Q3 & _).
      destruct (Sh 0%Z) as (x0 & y0 & z0 & w0 & F0 & _ & F1). change (o 0%Z) with s in F0. unfold s in F0.
      injection F0 as <- <- <- <-.
      destruct (Sh 1%Z) as (x1 & y1 & z1 & w1 & G1 & _ & F2). change (0 + 1)%Z with 1%Z in F1. rewrite F1 in G1. injection G1 as <- <- <- <-.
      destruct (Sh 2%Z) as (x2 & y2 & z2 & w2 & G2 & _ & F3). change (1 + 1)%Z with 2%Z in F2. rewrite F2 in G2. injection G2 as <- <- <- <-.
      change (2 + 1)%Z with 3%Z in F3. rewrite F1, F2, F3. auto.
  Qed.
  Lemma stream_unique a b c d x y : xorshift_stream_of a b c d x -> xorshift_stream_of a b c d y -> forall i, x i = y i.
  Proof.
    intros (Hx & x0 & x1 & x2 & x3) (Hy & y0 & y1 & y2 & y3) i.
    pose proof (orbit_unique xs_words f g (fun j => xs_window (x, j)) xgf (window_orbit x Hx) i) as A. cbv beta in A.
    pose proof (orbit_unique xs_words f g (fun j => xs_window (y, j)) xgf (window_orbit y Hy) i) as B. cbv beta in B.
    assert (E : xs_window (x, 0%Z) = xs_window (y, 0%Z)).
    { unfold xs_window. cbn [Z.add]. rewrite x0, x1, x2, x3, y0, y1, y2, y3. reflexivity. }
    rewrite E, <- B in A. unfold xs_window in A. now injection A.
  Qed.

  Variable stream : N -> N -> N -> N -> Z -> N.
  Hypothesis Hstream : forall a b c d, xorshift_stream_of a b c d (stream a b c d).
  Lemma f_mode m st : xs_words st -> fst (xs_next m st) = f st.
  Proof. intros H. unfold f. destruct m; [reflexivity|]. now rewrite xs_modes. Qed.
  Lemma advance_window m x i n : xorshift_stream x -> xs_advance m (xs_window (x, i)) n = xs_window (x, i + Z.of_N n)%Z.
  Proof.
    intros H. symmetry. unfold xs_advance.
    apply (orbit_add (fun _ => True) (fun st => fst (xs_next m st)) (fun j => xs_window (x, j))).
    intros j. split; [exact I|]. now rewrite window_next.
  Qed.
  Lemma ranged_ok m st lo hi : (-2^31 <= lo < hi)%Z -> (hi < 2^31)%Z ->
    xs_next_randrange m st lo hi = (fst (xs_next m st), Ok (ranged (snd (xs_next m st)) lo hi)).
  Proof.
    intros H1 H2. destruct (xs_randrange_range m st lo hi) as (v & E & L & S & _); try lia.
    rewrite E. f_equal. f_equal. unfold ranged, twos. rewrite <- S. unfold signed32.
    destruct (N.ltb_spec v (2^31)).
    - rewrite Z.mod_small by lia. lia.
    - replace (Z.of_N v - 2^32)%Z with (Z.of_N v + (-1) * 2^32)%Z by lia. rewrite Z.mod_add by lia. rewrite Z.mod_small by lia. lia.
  Qed.
  Lemma xs_call_cursor m c op : xorshift_stream (fst c) -> xs_arguments op ->
    xorshift_stream (fst (fst (xs_cursor stream c op))) /\
    xs_call m (xs_window c) op = (xs_window (fst (xs_cursor stream c op)), snd (xs_cursor stream c op)).
  Proof.
    destruct c as [x i]. cbn [fst]. intros H V.
    pose proof (window_next m x i H) as E.
    destruct op as [| |n|lo hi|mx|mx|a b c d]; cbn [xs_cursor xs_call fst snd xs_arguments] in *.
    - split; [exact H|]. now rewrite E.
    - split; [exact H|]. pose proof (window_next m x (i - 1)%Z H) as E'. pose proof (window_words x (i - 1)%Z H) as W.
      pose proof (xs_previous_next m _ W) as Q. rewrite E' in Q. cbn [fst snd] in Q.
      replace (i - 1 + 1)%Z with i in Q by lia. replace (i - 1 + 4)%Z with (i + 3)%Z in Q by lia. now rewrite Q.
    - split; [exact H|]. now rewrite advance_window.
    - split; [exact H|]. rewrite ranged_ok by lia. now rewrite E.
    - split; [exact H|]. unfold xs_next_rand. rewrite E. now rewrite umod_ok.
    - split; [exact H|]. unfold xs_next_alternate_rand. change (-2147483647 - 1)%Z with (-2^31)%Z.
      change 2147483647%Z with (2^31 - 1)%Z. rewrite ranged_ok by lia. rewrite E. cbn [fst snd rbind]. now rewrite umod_ok.
    - destruct (Hstream a b c d) as (S & S0 & S1 & S2 & S3). split; [exact S|].
      rewrite xs_re_init_words by (apply xs_words_length, window_words, H). unfold xs_window. cbn [Z.add].
      rewrite S0, S1, S2, S3. reflexivity.
  Qed.
  Lemma xs_run_cursor m ops : forall c, xorshift_stream (fst c) -> Forall xs_arguments ops ->
    xs_calls m (xs_window c) ops = (xs_window (fst (xs_cursor_run stream c ops)), snd (xs_cursor_run stream c ops)).
  Proof.
    induction ops as [|op t IH]; intros c H F; [reflexivity|]. inversion F; subst.
    cbn [xs_calls xs_cursor_run]. destruct (xs_call_cursor m c op) as (L & ->); try assumption.
    destruct (xs_cursor stream c op) as [c' o]. cbn [fst snd] in *. rewrite IH by assumption.
    now destruct (xs_cursor_run stream c' t).
  Qed.
  Lemma stream_xs m junk a b c d ops : length junk = 4%nat -> Forall xs_arguments ops ->
    let r := xs_cursor_run stream (stream a b c d, 0%Z) ops in
    xs_calls m (xs_new junk a b c d) ops = (xs_window (fst r), snd r).
  Proof.
    intros Hl F. destruct (Hstream a b c d) as (S & S0 & S1 & S2 & S3).
    cbv zeta. rewrite <- xs_run_cursor with (m := m) by assumption. f_equal. unfold xs_new.
    rewrite xs_re_init_words by exact Hl. unfold xs_window. cbn [Z.add]. rewrite S0, S1, S2, S3. reflexivity.
  Qed.
End X128.

(** ** Xoroshiro128+ *)
Section XO.
  Lemma opf st : xo_words st -> xo_words (xo_step st).
  Proof. apply xo_words_step. Qed.
  Lemma ostream_exists a b : a < 2^64 -> b < 2^64 -> exists x, xoroshiro_stream_of a b x.
  Proof.
    intros Ha Hb. assert (Hs : xo_words [a; b]) by now apply words2.
    assert (Pg : forall st, xo_words st -> xo_words (xo_back st)) by (intros st H; apply xo_step_back, H).
    exists (orbit xo_step xo_back [a; b]). split; [|reflexivity].
    assert (O : forall i, xo_words (orbit xo_step xo_back [a; b] i)).
    { intros i. apply (orbit_P xo_words xo_step xo_back _ _ opf Pg); exact Hs. }
    intros i. split; [apply O|].
    rewrite (orbit_step xo_words xo_step xo_back _ _ Pg) by (try exact Hs; intros st H; apply xo_step_back, H).
    now apply xo_step_ref.
  Qed.
  Lemma ostream_step x i : xoroshiro_stream x -> x (i + 1)%Z = xo_step (x i).
  Proof. intros H. rewrite (proj2 (H i)). symmetry. apply xo_step_ref, H. Qed.
  Lemma ostream_back x i : xoroshiro_stream x -> x (i - 1)%Z = xo_back (x i).
  Proof.
    intros H. pose proof (ostream_step x (i - 1)%Z H) as E. replace (i - 1 + 1)%Z with i in E by lia.
    rewrite E. symmetry. apply xo_back_step, H.
  Qed.
  Lemma ostream_unique a b x y : xoroshiro_stream_of a b x -> xoroshiro_stream_of a b y -> forall i, x i = y i.
  Proof.
    intros (Hx & x0) (Hy & y0) i.
    rewrite (orbit_unique xo_words xo_step xo_back x xo_back_step), (orbit_unique xo_words xo_step xo_back y xo_back_step).
    - now rewrite x0, y0.
    - intros j. split; [apply Hy|now apply ostream_step].
    - intros j. split; [apply Hx|now apply ostream_step].
  Qed.
  Lemma ostream_add x i n : xoroshiro_stream x -> x (i + Z.of_N n)%Z = N.iter n xo_step (x i).
  Proof.
    intros H. apply (orbit_add (fun _ => True) xo_step x). intros j. split; [exact I|now apply ostream_step].
  Qed.
  Lemma xo_out st : xo_words st -> w64 (aget st 0 + aget st 1) = xoroshiro_output st.
  Proof. intros H. apply (xo_next_out st H). Qed.
  Lemma sm_out st : xo_words st -> w32 (N.shiftr (w64 (aget st 0 + aget st 1)) 32) = xoroshiro_output st / 2^32.
  Proof.
    intros H. rewrite xo_out, N.shiftr_div_pow2 by exact H. apply w32_small.
    destruct H as (a & b & -> & _). cbn [xoroshiro_output]. pose proof (N.mod_lt (a + b) (2^64) ltac:(discriminate)) as L.
    apply N.div_lt_upper_bound; [discriminate|]. exact L.
  Qed.

  Variable stream : N -> N -> Z -> list N.
  Hypothesis Hstream : forall a b, a < 2^64 -> b < 2^64 -> xoroshiro_stream_of a b (stream a b).

  Lemma sm_start st seed : length st = 2%nat ->
    let a := splitmix64 (seed mod 2^64) 1 in let b := splitmix64 (seed mod 2^64) 2 in
    sm_re_init st seed = [a; b] /\ a < 2^64 /\ b < 2^64.
  Proof.
    intros Hl. destruct (sm_seed_ref st (w64 seed) Hl (w64_lt seed)) as (E & W & _). unfold sm_new in E, W.
    assert (Q : sm_re_init st (w64 seed) = sm_re_init st seed).
    { unfold sm_re_init. now rewrite w64_small by apply w64_lt. }
    rewrite Q in E, W. rewrite E in W. destruct W as (a & b & W & Ha & Hb). injection W as <- <-.
    split; [exact E|]. now split.
  Qed.
  Lemma sm_call_cursor m c op : xoroshiro_stream (fst c) -> sm_arguments op ->
    xoroshiro_stream (fst (fst (sm_cursor stream c op))) /\
    sm_call m (fst c (snd c)) op =
      (fst (fst (sm_cursor stream c op)) (snd (fst (sm_cursor stream c op))), snd (sm_cursor stream c op)).
  Proof.
    destruct c as [x i]. cbn [fst snd]. intros H V. pose proof (proj1 (H i)) as W.
    destruct op as [| |n|mx|seed]; cbn [sm_cursor sm_call fst snd sm_arguments] in *.
    - split; [exact H|]. unfold sm_next. rewrite sm_out by exact W. now rewrite ostream_step.
    - split; [exact H|]. unfold sm_previous. rewrite <- ostream_back by exact H. rewrite sm_out by apply H. reflexivity.
    - split; [exact H|]. rewrite sm_advance_step. now rewrite ostream_add.
    - split; [exact H|]. unfold sm_next_rand, sm_next. rewrite sm_out by exact W. rewrite umod_ok by exact V. now rewrite ostream_step.
    - destruct (sm_start (x i) seed (xo_words_length _ W)) as (-> & A & B).
      destruct (Hstream _ _ A B) as (S & S0). split; [exact S|]. now rewrite S0.
  Qed.
  Lemma sm_run_cursor m ops : forall c, xoroshiro_stream (fst c) -> Forall sm_arguments ops ->
    sm_calls m (fst c (snd c)) ops =
      (fst (fst (sm_cursor_run stream c ops)) (snd (fst (sm_cursor_run stream c ops))), snd (sm_cursor_run stream c ops)).
  Proof.
    induction ops as [|op t IH]; intros c H F; [reflexivity|]. inversion F; subst.
    cbn [sm_calls sm_cursor_run]. destruct (sm_call_cursor m c op) as (L & ->); try assumption.
    destruct (sm_cursor stream c op) as [c' o]. cbn [fst snd] in *. rewrite IH by assumption.
    now destruct (sm_cursor_run stream c' t).
  Qed.
  Lemma stream_sm m junk seed ops : length junk = 2%nat -> Forall sm_arguments ops ->
    let r := sm_cursor_run stream (stream (splitmix64 (seed mod 2^64) 1) (splitmix64 (seed mod 2^64) 2), 0%Z) ops in
    sm_calls m (sm_new junk seed) ops = (fst (fst r) (snd (fst r)), snd r).
  Proof.
    intros Hl F. destruct (sm_start junk seed Hl) as (E & A & B). destruct (Hstream _ _ A B) as (S & S0).
    cbv zeta. rewrite <- sm_run_cursor with (m := m) by assumption. cbn [fst snd]. rewrite S0. unfold sm_new. now rewrite E.
  Qed.

  Lemma draw_drawn x i j mx : xoroshiro_stream x -> xoroshiro_draw mx (x i) j = drawn x (i + Z.of_N j) mx.
  Proof.
    intros H. unfold xoroshiro_draw, drawn, full. rewrite ostream_add by exact H. now rewrite xo_iter_ref by apply H.
  Qed.
  Lemma reject_raises mask mx e fuel : forall st r, xo_reject fuel mask mx st r = Raise e -> e = OutOfFuel.
  Proof.
    induction fuel as [|f IH]; intros st r E; cbn [xo_reject] in E.
    - destruct (mx <=? r); [now injection E as <-|discriminate].
    - destruct (mx <=? r); [|discriminate]. destruct (xo_next st) as [st' r']. exact (IH _ _ E).
  Qed.
  Lemma xo_call_cursor m x i op : xoroshiro_stream x -> xo_arguments op ->
    snd (xo_call m (x i) op) <> OExn OutOfFuel ->
    exists c, xoroshiro_stream (fst c) /\ fst (xo_call m (x i) op) = fst c (snd c) /\
      xo_cursor stream (x, i) op c (snd (xo_call m (x i) op)).
  Proof.
    intros H V. pose proof (proj1 (H i)) as W.
    destruct op as [| |n|fuel mx|a b]; cbn [xo_call xo_arguments] in *.
    - intros _. exists (x, i + 1)%Z. split; [exact H|]. unfold xo_next. cbn [fst snd]. split; [symmetry; now apply ostream_step|].
      rewrite xo_out by exact W. apply Cur_next.
    - intros _. exists (x, i - 1)%Z. split; [exact H|]. unfold xo_previous. cbn [fst snd]. rewrite <- ostream_back by exact H.
      split; [reflexivity|]. rewrite xo_out by apply H. apply Cur_previous.
    - intros _. exists (x, i + Z.of_N n)%Z. split; [exact H|]. cbn [fst snd]. rewrite xo_advance_step.
      split; [symmetry; now apply ostream_add|apply Cur_advance].
    - destruct (xo_rand_spec m (x i) mx W V) as (k & A & B & C).
      destruct (xo_next_rand fuel m (x i) mx) as [[st v]|e] eqn:E; cbn [fst snd].
      + intros _. assert (E' : xo_next_rand (Nat.max fuel k) m (x i) mx = Ok (st, v)).
        { unfold xo_next_rand in *. destruct (xo_next (x i)) as [st' r']. apply (xo_reject_more fuel); [exact E|lia]. }
        rewrite (C (Nat.max fuel k)) in E' by lia. injection E' as <- <-.
        rewrite draw_drawn in B |- * by exact H.
        exists (x, i + Z.of_N (N.of_nat k) + 1)%Z. split; [exact H|]. cbn [fst snd]. split.
        * replace (i + Z.of_N (N.of_nat k) + 1)%Z with (i + Z.of_N (N.of_nat (S k)))%Z by lia.
          rewrite ostream_add by exact H. symmetry. now apply xo_iter_ref.
        * apply Cur_rand; [lia| |exact B]. intros j Hj. specialize (A (Z.to_nat (j - i)) ltac:(lia)).
          rewrite draw_drawn in A by exact H. replace (i + Z.of_N (N.of_nat (Z.to_nat (j - i))))%Z with j in A by lia. exact A.
      + intros N. exfalso. apply N. f_equal. unfold xo_next_rand in E. destruct (xo_next (x i)) as [st r].
        exact (reject_raises _ _ _ _ _ _ E).
    - intros _. exists (stream (a mod 2^64) (b mod 2^64), 0%Z).
      destruct (Hstream (a mod 2^64) (b mod 2^64)) as (S & S0); try (apply N.mod_lt; discriminate).
      split; [exact S|]. cbn [fst snd]. split; [|apply Cur_re_init].
      rewrite xo_re_init_eq by (apply xo_words_length, W). now rewrite S0.
  Qed.
  Lemma xo_run_cursor m ops : forall x i, xoroshiro_stream x -> Forall xo_arguments ops ->
    ~ In (OExn OutOfFuel) (snd (xo_calls m (x i) ops)) ->
    exists c, fst (xo_calls m (x i) ops) = fst c (snd c) /\
      xo_cursor_run stream (x, i) ops c (snd (xo_calls m (x i) ops)).
  Proof.
    induction ops as [|op t IH]; intros x i H F N.
    - exists (x, i). split; [reflexivity|]. apply Run_nil.
    - inversion F; subst. cbn [xo_calls] in *. pose proof (xo_call_cursor m x i op H) as K.
      destruct (xo_call m (x i) op) as [st o]. cbn [fst snd] in K.
      destruct (xo_calls m st t) as [st' os] eqn:E. cbn [fst snd] in *.
      destruct K as (c & S & E1 & R); [assumption|intros ->; apply N; now left|]. destruct c as [y j]. cbn [fst snd] in *.
      subst st. destruct (IH y j S) as (c & E2 & R2); [assumption|rewrite E; cbn [snd]; intros I; apply N; now right|].
      rewrite E in E2, R2. cbn [fst snd] in *. exists c. split; [exact E2|]. eapply Run_cons; eassumption.
  Qed.
  Lemma stream_xo m junk a b ops : length junk = 2%nat -> Forall xo_arguments ops ->
    ~ In (OExn OutOfFuel) (snd (xo_calls m (xo_new junk a b) ops)) ->
    exists c, fst (xo_calls m (xo_new junk a b) ops) = fst c (snd c) /\
      xo_cursor_run stream (stream (a mod 2^64) (b mod 2^64), 0%Z) ops c (snd (xo_calls m (xo_new junk a b) ops)).
  Proof.
    intros Hl F. destruct (Hstream (a mod 2^64) (b mod 2^64)) as (S & S0); try (apply N.mod_lt; discriminate).
    assert (E : xo_new junk a b = stream (a mod 2^64) (b mod 2^64) 0%Z).
    { unfold xo_new. rewrite xo_re_init_eq by exact Hl. now rewrite S0. }
    rewrite E. now apply xo_run_cursor.
  Qed.
End XO.
