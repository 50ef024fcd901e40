(** NumPy 1 and NumPy 2. *)
From Coq Require Import NArith ZArith List Bool Lia Floats.SpecFloat.
From Verif Require Import Base.Word Base.WordLemmas Model.Float Model.Lcrng32 Model.Lcrng64 Model.Xorshift Model.Gen3State Model.Scalars Model.NumPy2
  Spec.Gen3Spec Spec.Gen3WildSpec Spec.NumPySpec Proofs.Gen3StateProofs Proofs.Gen3StateInit Proofs.ScalarProofs.
Import ListNotations.
Ltac Zify.zify_post_hook ::= idtac.
Open Scope list_scope.
Open Scope N_scope.

(** Operators. *)
Lemma op1 f a y : exists c, op NumPy_1 f a (PyInt y) = Ok c /\ value c = f (value a) y.
Proof. destruct a; cbn; eauto. Qed.
Lemma op1s f a y : op NumPy_1 f a (SInt y) = Ok (SInt (f (value a) y)).
Proof. destruct a; reflexivity. Qed.
Lemma op1u f w x y : op NumPy_1 f (UInt w x) (PyInt y) = Ok (SInt (f x y)).
Proof. reflexivity. Qed.
Lemma op1ss f x b : op NumPy_1 f (SInt x) b = Ok (SInt (f x (value b))).
Proof. destruct b; reflexivity. Qed.
Lemma op2u f w x y : y < 2 ^ w -> f x y < 2 ^ w -> op NumPy_2 f (UInt w x) (PyInt y) = Ok (UInt w (f x y)).
Proof. intros H K. unfold op. destruct (N.ltb_spec y (2^w)); [|lia]. rewrite N.mod_small by exact K. reflexivity. Qed.
Lemma op2m f w x y : y < 2 ^ w -> op NumPy_2 f (UInt w x) (PyInt y) = Ok (UInt w (f x y mod 2 ^ w)).
Proof. intros H. unfold op. destruct (N.ltb_spec y (2^w)); [reflexivity|lia]. Qed.
Lemma op2p f w x y : x < 2 ^ w -> op NumPy_2 f (PyInt x) (UInt w y) = Ok (UInt w (f x y mod 2 ^ w)).
Proof. intros H. unfold op. destruct (N.ltb_spec x (2^w)); [reflexivity|lia]. Qed.

Lemma raw_stat1 base iv level : raw_stat_np NumPy_1 (UInt 8 base) iv level = Ok (SInt (core NumPy_1 base iv level)) /\
  raw_stat_np NumPy_1 (PyInt base) iv level = Ok (SInt (core NumPy_1 base iv level)).
Proof. split; reflexivity. Qed.
Lemma raw_stat2 base iv level : raw_stat_np NumPy_2 (UInt 8 base) iv level = Ok (UInt 8 (core NumPy_2 base iv level)).
Proof.
  unfold raw_stat_np. rewrite op2p by reflexivity. cbn [rbind].
  unfold op at 1. cbn [rbind]. unfold op at 1. cbn [rbind]. change (N.max 8 8) with 8.
  rewrite op2u; [|reflexivity|].
  - unfold core. change (2^8) with 256. do 3 f_equal.
    rewrite N.add_mod_idemp_l by discriminate. rewrite N.mul_mod_idemp_l by discriminate. reflexivity.
  - apply N.div_lt_upper_bound; [discriminate|].
    match goal with |- ?x mod _ < _ => pose proof (N.mod_lt x (2^8) ltac:(discriminate)) as K; revert K; generalize (x mod 2^8) end.
    intros x. change (2^8) with 256. lia.
Qed.
Lemma raw_stat2p base iv level : raw_stat_np NumPy_2 (PyInt base) iv level =
  if base <? 128 then raw_stat_np NumPy_2 (UInt 8 base) iv level else Raise OverflowError.
Proof.
  unfold raw_stat_np. rewrite (op2p N.mul 8 2) by reflexivity. cbn [rbind op].
  change (2^8) with 256.
  destruct (N.ltb_spec base 128); destruct (N.ltb_spec (2 * base) 256); try lia; [|reflexivity].
  rewrite (N.mod_small (2 * base)) by lia. reflexivity.
Qed.

Lemma core_small v base iv level : base < 256 -> iv < 256 -> level < 256 -> core v base iv level <= 1950.
Proof.
  intros Hb Hi Hl. unfold core. apply N.lt_succ_r.
  assert (L : (2 * base + iv) * level <= 765 * 255) by (apply N.mul_le_mono; lia).
  revert L. generalize ((2 * base + iv) * level). intros x L. pose proof (N.mod_lt x 256 ltac:(discriminate)).
  destruct v; (apply N.div_lt_upper_bound; [discriminate|]); lia.
Qed.

(** One round of the loop. *)
Definition small (v : numpy) (i : nat) (a : scalar) : Prop :=
  value a < 2 ^ N.of_nat i /\ match v with NumPy_1 => True | NumPy_2 => exists n, a = UInt 8 n end.
Definition stored (v : numpy) (nature level : N) (base ivs : list N) (i : nat) : N :=
  match i with
  | O => core v (aget base 0) (aget ivs 0) level + level + 10
  | _ => modified (nature / 5 =? N.of_nat i - 1) (nature mod 5 =? N.of_nat i - 1)
           (core v (aget base i) (aget ivs i) level + 5)
  end.

Lemma bit_le x k : bit x k <= 1.
Proof. unfold bit. destruct (N.testbit x k); cbn; lia. Qed.

Lemma add_bit v i a x k : (i < 6)%nat -> small v i a ->
  exists c, op v N.add a (match v with NumPy_1 => SInt (2 ^ N.of_nat i * bit x k) | NumPy_2 => UInt 8 (2 ^ N.of_nat i * bit x k) end) = Ok c
   /\ value c = value a + 2 ^ N.of_nat i * bit x k /\ small v (S i) c.
Proof.
  intros Hi [Hv Hk]. pose proof (bit_le x k) as Hb.
  assert (Hs : value a + 2 ^ N.of_nat i * bit x k < 2 ^ N.of_nat (S i)).
  { rewrite Nat2N.inj_succ, N.pow_succ_r'.
    assert (2 ^ N.of_nat i * bit x k <= 2 ^ N.of_nat i * 1) by (apply N.mul_le_mono_l; exact Hb). lia. }
  destruct v.
  - rewrite op1s. eexists. split; [reflexivity|]. split; [reflexivity|]. split; [exact Hs|exact I].
  - destruct Hk as [n ->]. cbn [op]. change (N.max 8 8) with 8. cbn [value] in *.
    assert (2 ^ N.of_nat (S i) <= 2 ^ 6) by (apply N.pow_le_mono_r; [discriminate|lia]).
    rewrite N.mod_small by (change (2^6) with 64 in *; change (2^8) with 256; lia).
    eexists. split; [reflexivity|]. split; [reflexivity|]. split; [exact Hs|eexists; reflexivity].
Qed.

Lemma bit0 x i : N.shiftl (N.land x 1) (N.of_nat i) = 2 ^ N.of_nat i * bit x 0.
Proof.
  rewrite N.shiftl_mul_pow2. change 1 with (N.ones 1) at 1. rewrite N.land_ones.
  unfold bit. rewrite N.testbit_spec'. change (2^0) with 1. rewrite N.div_1_r.
  change (2^1) with 2. apply N.mul_comm.
Qed.
Lemma bit1 x i : N.shiftl (N.land (N.shiftr x 1) 1) (N.of_nat i) = 2 ^ N.of_nat i * bit x 1.
Proof. rewrite bit0. unfold bit. rewrite N.shiftr_spec'. reflexivity. Qed.

Lemma pow_bit i x k : (i < 6)%nat -> 2 ^ N.of_nat i * bit x k < 2 ^ 8.
Proof.
  intros Hi. assert (2 ^ N.of_nat i <= 2 ^ 5) by (apply N.pow_le_mono_r; [discriminate|lia]).
  pose proof (bit_le x k).
  assert (2 ^ N.of_nat i * bit x k <= 2 ^ 5 * 1) by (apply N.mul_le_mono; assumption).
  change (2^5) with 32 in *. change (2^8) with 256. lia.
Qed.
Lemma land1 x : N.land x 1 < 2^8.
Proof. change 1 with (N.ones 1). rewrite N.land_ones. change (2^1) with 2. pose proof (N.mod_lt x 2 ltac:(discriminate)). change (2^8) with 256. lia. Qed.

Lemma low_bit v x i : (i < 6)%nat -> 
  rbind (op v N.land (UInt 8 x) (PyInt 1)) (fun b => op v N.shiftl b (PyInt (N.of_nat i))) =
  Ok (match v with NumPy_1 => SInt (2 ^ N.of_nat i * bit x 0) | NumPy_2 => UInt 8 (2 ^ N.of_nat i * bit x 0) end).
Proof.
  intros Hi. destruct v.
  - rewrite op1u. cbn [rbind]. rewrite op1ss. cbn [value]. rewrite bit0. reflexivity.
  - rewrite op2u; [|reflexivity|apply land1]. cbn [rbind].
    rewrite op2u; [rewrite bit0; reflexivity|change (2^8) with 256; lia|rewrite bit0; apply pow_bit; exact Hi].
Qed.
Lemma next_bit v x i : (i < 6)%nat -> x < 256 ->
  rbind (op v N.shiftr (UInt 8 x) (PyInt 1)) (fun b => rbind (op v N.land b (PyInt 1)) (fun b => op v N.shiftl b (PyInt (N.of_nat i)))) =
  Ok (match v with NumPy_1 => SInt (2 ^ N.of_nat i * bit x 1) | NumPy_2 => UInt 8 (2 ^ N.of_nat i * bit x 1) end).
Proof.
  intros Hi Hx. destruct v.
  - rewrite op1u. cbn [rbind]. rewrite op1ss. cbn [rbind value]. rewrite op1ss. cbn [value]. rewrite bit1. reflexivity.
  - rewrite op2u; [|reflexivity|].
    2:{ rewrite N.shiftr_div_pow2. change (2^1) with 2. change (2^8) with 256. apply N.div_lt_upper_bound; lia. }
    cbn [rbind]. rewrite op2u; [|reflexivity|apply land1]. cbn [rbind].
    rewrite op2u; [rewrite bit1; reflexivity|change (2^8) with 256; lia|rewrite bit1; apply pow_bit; exact Hi].
Qed.

Lemma cast_np v w a : (v = NumPy_2 -> forall n, a <> PyInt n) -> cast v w a = Ok (UInt w (value a mod 2 ^ w)).
Proof. intros H. destruct v; [reflexivity|]. destruct a as [n|w' n|n]; [elim (H eq_refl n eq_refl)|reflexivity|reflexivity]. Qed.

Section Loop.
Variables (v : numpy) (pid level : N) (base ivs : list N) (tag : N -> scalar).
Hypothesis Hpid : pid < 2 ^ 32.
Hypothesis Hlevel : level < 256.
Hypothesis Hbase : forall i, aget base i < 256.
Hypothesis Hivs : forall i, aget ivs i < 256.
Hypothesis Hlen : length base = 6%nat.

Definition raw_ok (i : nat) : Prop :=
  raw_stat_np v (tag (aget base i)) (aget ivs i) level = raw_stat_np v (UInt 8 (aget base i)) (aget ivs i) level.

Lemma body_np i u w c : (i < 6)%nat -> length (n_stats u) = 6%nat -> raw_ok i ->
  small v i (n_hpv u) -> small v i (n_hps u) -> n_char u = UInt w c -> w = 8 \/ w = 32 ->
  exists hpv hps w',
    update_body_np v ivs (map tag base) level (pid mod 25) (pid mod 6) i u =
      Ok (mkUpdNp hpv hps (aset (n_stats u) i (stored v (pid mod 25) level base ivs i))
            (UInt w' (fst (char_step pid ivs (N.of_nat i) (c, n_max_iv u))))
            (snd (char_step pid ivs (N.of_nat i) (c, n_max_iv u)))) /\
    value hpv = value (n_hpv u) + 2 ^ N.of_nat i * bit (iv_in_game_order ivs (N.of_nat i)) 0 /\ small v (S i) hpv /\
    value hps = value (n_hps u) + 2 ^ N.of_nat i * bit (iv_in_game_order ivs (N.of_nat i)) 1 /\ small v (S i) hps /\
    (w' = 8 \/ w' = 32).
Proof.
  intros Hi Hst Hraw Hp Hq Hc Hw.
  assert (H25 : pid mod 25 < 25) by (apply N.mod_lt; discriminate).
  assert (H6 : pid mod 6 < 6) by (apply N.mod_lt; discriminate).
  unfold update_body_np. cbv zeta.
  assert (Eiv : aget ivs (N.to_nat (aget ORDER i)) = iv_in_game_order ivs (N.of_nat i)).
  { rewrite <- order_iv by lia. now rewrite Nat2N.id. }
  rewrite Eiv.
  assert (Hiv : iv_in_game_order ivs (N.of_nat i) < 256) by (rewrite <- Eiv; apply Hivs).
  rewrite low_bit by exact Hi. cbn [rbind].
  destruct (add_bit v i (n_hpv u) (iv_in_game_order ivs (N.of_nat i)) 0 Hi Hp) as (hpv & E1 & V1 & S1).
  rewrite E1. cbn [rbind]. rewrite next_bit by assumption. cbn [rbind].
  destruct (add_bit v i (n_hps u) (iv_in_game_order ivs (N.of_nat i)) 1 Hi Hq) as (hps & E2 & V2 & S2).
  rewrite E2. cbn [rbind].
  assert (Enth : nth i (map tag base) (PyInt 0) = tag (aget base i)).
  { rewrite (nth_indep _ _ (tag 0)) by (rewrite map_length; lia). apply map_nth. }
  rewrite Enth. unfold raw_ok in Hraw. rewrite Hraw.
  pose proof (core_small v (aget base i) (aget ivs i) level (Hbase i) (Hivs i) Hlevel) as Hcore.
  assert (Estat : rbind (raw_stat_np v (UInt 8 (aget base i)) (aget ivs i) level) (cast v 16) =
                  Ok (UInt 16 (core v (aget base i) (aget ivs i) level))).
  { destruct v.
    - rewrite (proj1 (raw_stat1 _ _ _)). cbn [rbind cast value]. rewrite N.mod_small; [reflexivity|]. change (2^16) with 65536. lia.
    - rewrite raw_stat2. cbn [rbind cast value]. rewrite N.mod_small; [reflexivity|]. change (2^16) with 65536. lia. }
  rewrite Estat. cbn [rbind].
  assert (Eset : match i with
     | O => rbind (op v N.add (UInt 16 (core v (aget base i) (aget ivs i) level)) (UInt 8 level)) (fun s => rbind (op v N.add s (PyInt 10)) (fun s =>
            asetr (n_stats u) i (w16 (value s))))
     | _ => rbind (op v N.add (UInt 16 (core v (aget base i) (aget ivs i) level)) (PyInt 5)) (fun s =>
            rbind (compute_stat (value s) (pid mod 25) (N.of_nat i)) (fun s => asetr (n_stats u) i s))
     end = Ok (aset (n_stats u) i (stored v (pid mod 25) level base ivs i))).
  { revert Hcore. unfold stored. destruct i as [|i']; generalize (core v) as co; intros co Hcore.
    - cbn [op]. change (N.max 16 8) with 16. cbn [rbind].
      rewrite N.mod_small by (change (2^16) with 65536; lia).
      assert (E : exists a, op v N.add (UInt 16 (co (aget base 0) (aget ivs 0) level + level)) (PyInt 10) = Ok a /\ value a = co (aget base 0) (aget ivs 0) level + level + 10).
      { destruct v; [eexists; split; reflexivity|]. rewrite op2u by (change (2^16) with 65536; lia). eexists; split; reflexivity. }
      destruct E as (a & E & Va). rewrite E. cbn [rbind]. rewrite Va.
      rewrite w16_small by lia. unfold asetr. destruct (Nat.ltb_spec 0 (length (n_stats u))); [reflexivity|lia].
    - assert (E : exists a, op v N.add (UInt 16 (co (aget base (S i')) (aget ivs (S i')) level)) (PyInt 5) = Ok a /\ value a = co (aget base (S i')) (aget ivs (S i')) level + 5).
      { destruct v; [eexists; split; reflexivity|]. rewrite op2u by (change (2^16) with 65536; lia). eexists; split; reflexivity. }
      destruct E as (a & E & Va). rewrite E. cbn [rbind]. rewrite Va.
      rewrite c40; [|change (2^16) with 65536; lia
                    |apply N.div_lt_upper_bound; [discriminate|change (2^16) with 65536; lia]
                    |exact H25|lia].
      cbn [rbind]. unfold asetr. destruct (Nat.ltb_spec (S i') (length (n_stats u))); [reflexivity|lia]. }
  rewrite Eset. cbn [rbind].
  assert (Epos : exists a, op v N.add (UInt 32 (pid mod 6)) (PyInt (N.of_nat i)) = Ok a /\ value a = pid mod 6 + N.of_nat i).
  { destruct v; [eexists; split; reflexivity|]. rewrite op2u by (change (2^32) with 4294967296; lia). eexists; split; reflexivity. }
  destruct Epos as (a & Epos & Va). rewrite Epos. cbn [rbind]. rewrite Va.
  rewrite N2Nat.inj_add, char_order by lia.
  rewrite order_iv by (apply N.mod_lt; discriminate).
  fold (at_cyc pid ivs (N.of_nat i)). unfold char_step. cbn [fst snd].
  exists hpv, hps.
  destruct (n_max_iv u <? at_cyc pid ivs (N.of_nat i)).
  - exists 8. cbn [fst snd]. repeat split; try assumption; try apply S1; try apply S2. left; reflexivity.
  - exists w. cbn [fst snd]. rewrite Hc. repeat split; try assumption; try apply S1; try apply S2.
Qed.

(** A base stat that is a Python int and does not fit raises. *)
Lemma body_raise i u w c : (i < 6)%nat -> length (n_stats u) = 6%nat ->
  raw_stat_np v (tag (aget base i)) (aget ivs i) level = Raise OverflowError ->
  small v i (n_hpv u) -> small v i (n_hps u) -> n_char u = UInt w c ->
  update_body_np v ivs (map tag base) level (pid mod 25) (pid mod 6) i u = Raise OverflowError.
Proof.
  intros Hi Hst Hraw Hp Hq Hc.
  unfold update_body_np. cbv zeta.
  rewrite low_bit by exact Hi. cbn [rbind].
  destruct (add_bit v i (n_hpv u) (aget ivs (N.to_nat (aget ORDER i))) 0 Hi Hp) as (hpv & E1 & V1 & S1).
  rewrite E1. cbn [rbind]. rewrite next_bit by (try assumption; apply Hivs). cbn [rbind].
  destruct (add_bit v i (n_hps u) (aget ivs (N.to_nat (aget ORDER i))) 1 Hi Hq) as (hps & E2 & V2 & S2).
  rewrite E2. cbn [rbind].
  assert (Enth : nth i (map tag base) (PyInt 0) = tag (aget base i)).
  { rewrite (nth_indep _ _ (tag 0)) by (rewrite map_length; lia). apply map_nth. }
  rewrite Enth, Hraw. reflexivity.
Qed.
Lemma loop_raise : forall n i u w c, (i + n <= 6)%nat -> length (n_stats u) = 6%nat ->
  small v i (n_hpv u) -> small v i (n_hps u) -> n_char u = UInt w c -> w = 8 \/ w = 32 ->
  (forall j, (j < 6)%nat -> raw_ok j \/ raw_stat_np v (tag (aget base j)) (aget ivs j) level = Raise OverflowError) ->
  (exists j, (i <= j < i + n)%nat /\ raw_stat_np v (tag (aget base j)) (aget ivs j) level = Raise OverflowError) ->
  for_range_r n i (update_body_np v ivs (map tag base) level (pid mod 25) (pid mod 6)) u = Raise OverflowError.
Proof.
  induction n as [|n IH]; intros i u w c Hi Hst Hp Hq Hc Hw Hall (j & Hj & Ej); [lia|].
  cbn [for_range_r]. assert (Hi' : (i < 6)%nat) by lia.
  destruct (Hall i Hi') as [Hok|Hr].
  - destruct (Nat.eq_dec i j) as [->|Hne].
    { rewrite (body_raise j u w c); auto. }
    destruct (body_np i u w c) as (hpv & hps & w' & E & _ & S1 & _ & S2 & Hw'); auto.
    rewrite E. cbn [rbind]. eapply IH; cbn [n_stats n_hpv n_hps n_char]; eauto; try lia.
    + rewrite aset_length. exact Hst.
    + exists j. split; [lia|exact Ej].
  - rewrite (body_raise i u w c); auto.
Qed.

Fixpoint run (n : nat) : N * N :=
  match n with O => (pid mod 6, 0) | S n => char_step pid ivs (N.of_nat n) (run n) end.
Fixpoint sum (b : N) (n : nat) : N :=
  match n with O => 0 | S n => sum b n + 2 ^ N.of_nat n * bit (iv_in_game_order ivs (N.of_nat n)) b end.
Definition Inv (i : nat) (u : upd_np) : Prop :=
  length (n_stats u) = 6%nat /\ (forall j, (j < i)%nat -> aget (n_stats u) j = stored v (pid mod 25) level base ivs j) /\
  value (n_hpv u) = sum 0 i /\ small v i (n_hpv u) /\ value (n_hps u) = sum 1 i /\ small v i (n_hps u) /\
  (exists w, (w = 8 \/ w = 32) /\ n_char u = UInt w (fst (run i))) /\ n_max_iv u = snd (run i).
Lemma inv_step i u : (i < 6)%nat -> raw_ok i -> Inv i u ->
  exists u', update_body_np v ivs (map tag base) level (pid mod 25) (pid mod 6) i u = Ok u' /\ Inv (S i) u'.
Proof.
  intros Hi Hr (L & St & Vp & Sp & Vq & Sq & (w & Hw & Hc) & Hm).
  destruct (body_np i u w (fst (run i)) Hi L Hr Sp Sq Hc Hw) as (p & q & w' & E & P & SP & Q & SQ & W).
  rewrite Hm, <- surjective_pairing in E. eexists. split; [exact E|]. unfold Inv.
  cbn [n_stats n_hpv n_hps n_char n_max_iv]. cbn [sum run]. rewrite P, Q, Vp, Vq.
  split; [rewrite aset_length; exact L|]. split.
  { intros j Hj. destruct (Nat.eq_dec j i) as [->|Hne].
    - apply aget_aset_eq. lia.
    - rewrite aget_aset_ne by auto. apply St. lia. }
  split; [reflexivity|]. split; [exact SP|]. split; [reflexivity|]. split; [exact SQ|].
  split; [|reflexivity]. exists w'. split; [exact W|reflexivity].
Qed.
Lemma loop_np junk : length junk = 6%nat -> (forall i, (i < 6)%nat -> raw_ok i) ->
  exists hpv hps w,
  for_range_r 6 0 (update_body_np v ivs (map tag base) level (pid mod 25) (pid mod 6)) (mkUpdNp (UInt 8 0) (UInt 8 0) junk (UInt 32 (pid mod 6)) 0) =
    Ok (mkUpdNp hpv hps (map (stored v (pid mod 25) level base ivs) (seq 0 6)) (UInt w (fst (char_run pid ivs))) (snd (char_run pid ivs))) /\
  value hpv = iv_bits ivs 0 /\ small v 6 hpv /\ value hps = iv_bits ivs 1 /\ small v 6 hps /\ (w = 8 \/ w = 32).
Proof.
  intros Hj Hraw.
  assert (I0 : Inv 0 (mkUpdNp (UInt 8 0) (UInt 8 0) junk (UInt 32 (pid mod 6)) 0)).
  { assert (S0 : small v 0 (UInt 8 0)).
    { split; [cbn; lia|]. destruct v; [exact I|eexists; reflexivity]. }
    unfold Inv. cbn [n_stats n_hpv n_hps n_char n_max_iv sum run fst snd value].
    split; [exact Hj|]. split; [intros; lia|]. do 4 (split; [reflexivity || exact S0|]). split; [|reflexivity].
    exists 32. split; [right; reflexivity|reflexivity]. }
  cbn [for_range_r].
  destruct (inv_step 0%nat _ ltac:(lia) (Hraw 0%nat ltac:(lia)) I0) as (u1 & E1 & I1). rewrite E1. cbn [rbind].
  destruct (inv_step 1%nat _ ltac:(lia) (Hraw 1%nat ltac:(lia)) I1) as (u2 & E2 & I2). rewrite E2. cbn [rbind].
  destruct (inv_step 2%nat _ ltac:(lia) (Hraw 2%nat ltac:(lia)) I2) as (u3 & E3 & I3). rewrite E3. cbn [rbind].
  destruct (inv_step 3%nat _ ltac:(lia) (Hraw 3%nat ltac:(lia)) I3) as (u4 & E4 & I4). rewrite E4. cbn [rbind].
  destruct (inv_step 4%nat _ ltac:(lia) (Hraw 4%nat ltac:(lia)) I4) as (u5 & E5 & I5). rewrite E5. cbn [rbind].
  destruct (inv_step 5%nat _ ltac:(lia) (Hraw 5%nat ltac:(lia)) I5) as (u6 & E6 & I6). rewrite E6. cbn [rbind].
  destruct I6 as (L & St & Vp & Sp & Vq & Sq & (w & Hw & Hc) & Hm). clear - L St Vp Sp Vq Sq Hw Hc Hm.
  assert (HS : forall b, sum b 6 = iv_bits ivs b).
  { intros b. cbn [sum]. unfold iv_bits.
    change (2 ^ N.of_nat 0) with 1. change (2 ^ N.of_nat 1) with 2. change (2 ^ N.of_nat 2) with 4.
    change (2 ^ N.of_nat 3) with 8. change (2 ^ N.of_nat 4) with 16. change (2 ^ N.of_nat 5) with 32.
    change (N.of_nat 0) with 0. change (N.of_nat 1) with 1. change (N.of_nat 2) with 2.
    change (N.of_nat 3) with 3. change (N.of_nat 4) with 4. change (N.of_nat 5) with 5.
    rewrite N.add_0_l, N.mul_1_l. reflexivity. }
  destruct u6 as [p q st ch m]. cbn [n_stats n_hpv n_hps n_char n_max_iv] in *. subst ch m.
  exists p, q, w. rewrite HS in Vp, Vq. split; [|repeat split; try assumption; try apply Sp; try apply Sq].
  change (run 6) with (char_run pid ivs).
  assert (Est : st = map (stored v (pid mod 25) level base ivs) (seq 0 6)).
  { destruct st as [|s0 [|s1 [|s2 [|s3 [|s4 [|s5 [|]]]]]]]; try discriminate L.
    cbn [map seq].
    rewrite <- (St 0%nat), <- (St 1%nat), <- (St 2%nat), <- (St 3%nat), <- (St 4%nat), <- (St 5%nat) by lia. reflexivity. }
  rewrite Est. reflexivity.
Qed.
End Loop.

Definition plain (v : numpy) (a : scalar) : Prop := match v, a with NumPy_2, PyInt _ => False | _, _ => True end.
Lemma cast_ok v w a : fits w a -> cast v w a = Ok (UInt w (value a)).
Proof.
  unfold fits. intros H. unfold cast. destruct v, a as [n|w' n|n]; cbn [value] in *; rewrite ?N.mod_small by exact H; try reflexivity.
  destruct (N.ltb_spec n (2^w)); [reflexivity|lia].
Qed.
Lemma land_ones_small a m k : m = N.ones k -> N.land a m < 2 ^ k.
Proof. intros ->. rewrite N.land_ones. apply N.mod_lt, N.pow_nonzero. discriminate. Qed.
Lemma gender_np v pid ratio : pid < 2 ^ 32 -> get_gender_of v (UInt 32 pid) (UInt 8 ratio) = Ok (get_gender pid ratio).
Proof.
  intros H. unfold get_gender_of, get_gender. cbn [value].
  destruct (ratio =? 255); [reflexivity|]. destruct (ratio =? 254); [reflexivity|]. destruct (ratio =? 0); [reflexivity|].
  pose proof (land_ones_small pid 0xFF 8 eq_refl) as L.
  destruct v; [reflexivity|]. rewrite op2u; [reflexivity|reflexivity|]. change (2^8) with 256 in L. change (2^32) with 4294967296. lia.
Qed.
Lemma fin_op v f w x y : y < 2 ^ w -> f x y < 2 ^ w -> exists a, op v f (UInt w x) (PyInt y) = Ok a /\ value a = f x y /\
  (v = NumPy_1 -> a = SInt (f x y)) /\ (v = NumPy_2 -> a = UInt w (f x y)).
Proof.
  intros Hy Hf. destruct v.
  - eexists. split; [reflexivity|]. split; [reflexivity|]. split; [reflexivity|discriminate].
  - rewrite op2u by assumption. eexists. split; [reflexivity|]. split; [reflexivity|]. split; [discriminate|reflexivity].
Qed.

Lemma stored_stats v n level base ivs : map (stored v n level base ivs) (seq 0 6) = stats_of v n level base ivs.
Proof.
  unfold stats_of. cbn [map seq]. unfold stored, aget.
  assert (E : forall a i, (0 < i)%nat -> (a =? N.of_nat i - 1) = (a + 1 =? N.of_nat i)).
  { intros a i Hi. destruct (N.eqb_spec a (N.of_nat i - 1)), (N.eqb_spec (a + 1) (N.of_nat i)); try reflexivity; lia. }
  rewrite !E by lia. reflexivity.
Qed.

Definition pow_hp (v : numpy) (x : N) : N := match v with NumPy_1 => x | NumPy_2 => x mod 256 end.
Section State.
Variables (v : numpy) (tag : N -> scalar) (junk : list N) (advance pid species form : scalar) (ivs : list N)
  (ability level shiny : scalar) (info : personal3).
Hypothesis Hj : length junk = 6%nat.
Hypothesis Fadvance : fits 32 advance.
Hypothesis Fpid : fits 32 pid.
Hypothesis Fspecies : fits 16 species.
Hypothesis Fform : fits 8 form.
Hypothesis Fability : fits 8 ability.
Hypothesis Flevel : fits 8 level.
Hypothesis Fshiny : fits 8 shiny.
Hypothesis Hivs : Forall (fun x => x < 256) ivs.
Hypothesis Hinfo : info_ok info.

Lemma aget_ivs i : aget ivs i < 256.
Proof.
  unfold aget. destruct (Nat.lt_ge_cases i (length ivs)) as [H|H].
  - rewrite Forall_forall in Hivs. apply Hivs, nth_In, H.
  - rewrite nth_overflow by exact H. reflexivity.
Qed.
Lemma aget_bases i : aget (bases info) i < 256.
Proof.
  destruct Hinfo as (H1 & H2 & H3 & H4 & H5 & H6 & _). unfold bases, aget.
  do 6 (destruct i as [|i]; [assumption|]). destruct i; reflexivity.
Qed.

Lemma gstate_np_ok :
  (forall i, (i < 6)%nat -> raw_ok v (value level) (bases info) ivs tag i) ->
  gstate_np v tag junk advance pid species form ivs ability level shiny info =
  Ok {| g_advance := value advance; g_pid := value pid; g_species := value species; g_form := value form;
        g_stats := stats_of v (value pid mod 25) (value level) (bases info) ivs;
        g_ability_index := if value ability =? 0 then pi_ability_1 info else pi_ability_2 info;
        g_ivs := ivs; g_ability := value ability;
        g_characteristic := fst (char_run (value pid) ivs) * 5 + snd (char_run (value pid) ivs) mod 5;
        g_gender := get_gender (value pid) (pi_gender_ratio info);
        g_hidden_power := pow_hp v (iv_bits ivs 0 * 15) / 63;
        g_hidden_power_strength := AFloat (f64_add (f64_of_N 30) (f64_div (f64_of_N (pow_hp v (iv_bits ivs 1 * 40))) (f64_of_N 63)));
        g_level := value level; g_nature := value pid mod 25; g_shiny := value shiny |}.
Proof.
  intros Hraw. unfold gstate_np.
  rewrite !cast_ok by assumption. cbn [rbind].
  rewrite gender_np by exact Fpid. cbn [rbind].
  assert (H25 : value pid mod 25 < 25) by (apply N.mod_lt; discriminate).
  assert (H6 : value pid mod 6 < 6) by (apply N.mod_lt; discriminate).
  destruct (fin_op v N.modulo 32 (value pid) 25) as (nat_ & E & Vn & _ & _); [reflexivity|change (2^32) with 4294967296; lia|].
  rewrite E. clear E. cbn [rbind]. rewrite Vn.
  change (op v N.modulo (UInt 32 (value pid)) (UInt 8 6)) with (@Ok scalar (UInt 32 (value pid mod 6 mod 2 ^ 32))). cbn [rbind value].
  rewrite (N.mod_small (value pid mod 6)) by (change (2^32) with 4294967296; lia).
  cbv zeta.
  change (map tag [pi_hp info; pi_attack info; pi_defense info; pi_special_attack info; pi_special_defense info; pi_speed info]) with (map tag (bases info)).
  destruct (loop_np v (value pid) (value level) (bases info) ivs tag Fpid Flevel aget_bases aget_ivs eq_refl junk Hj Hraw)
    as (hpv & hps & w & EL & Vp & Sp & Vq & Sq & Hw).
  rewrite EL. clear EL. cbn [rbind n_hpv n_hps n_stats n_char n_max_iv].
  assert (Hcr : fst (char_run (value pid) ivs) < 6) by apply char_run_spec.
  assert (Hmx : snd (char_run (value pid) ivs) mod 5 < 5) by (apply N.mod_lt; discriminate).
  assert (EH : exists a, rbind (op v N.mul hpv (PyInt 15)) (fun x => op v N.div x (PyInt 63)) = Ok a /\ value a = pow_hp v (iv_bits ivs 0 * 15) / 63).
  { rewrite <- Vp. destruct Sp as [_ Sp]. destruct v.
    - destruct (op1 N.mul hpv 15) as (a & Ea & Va). rewrite Ea. cbn [rbind].
      destruct (op1 N.div a 63) as (b & Eb & Vb). rewrite Eb. exists b. rewrite Vb, Va. split; reflexivity.
    - destruct Sp as [n ->]. rewrite op2m by reflexivity. cbn [rbind value]. rewrite op2u; [eexists; split; reflexivity|reflexivity|].
      pose proof (N.mod_lt (n * 15) (2^8) ltac:(discriminate)) as K. revert K. generalize ((n * 15) mod 2^8). intros x K.
      apply N.div_lt_upper_bound; [discriminate|]. change (2^8) with 256 in *. lia. }
  destruct EH as (hp & EH & VH). rewrite EH. cbn [rbind]. rewrite VH.
  assert (ES : exists a, op v N.mul hps (PyInt 40) = Ok a /\ value a = pow_hp v (iv_bits ivs 1 * 40)).
  { rewrite <- Vq. destruct Sq as [_ Sq]. destruct v.
    - destruct (op1 N.mul hps 40) as (a & Ea & Va). exists a. rewrite Va. split; [exact Ea|reflexivity].
    - destruct Sq as [n ->]. rewrite op2m by reflexivity. eexists. split; reflexivity. }
  destruct ES as (hs & ES & VS). rewrite ES. cbn [rbind]. rewrite VS.
  assert (Hw2 : 2 ^ 8 <= 2 ^ w) by (destruct Hw as [-> | ->]; [lia|discriminate]).
  change (2^8) with 256 in Hw2.
  destruct (fin_op v N.mul w (fst (char_run (value pid) ivs)) 5) as (five & E5 & V5 & A1 & A2); [lia|lia|].
  rewrite E5. cbn [rbind].
  destruct (fin_op v N.modulo 8 (snd (char_run (value pid) ivs)) 5) as (rest & E6 & V6 & B1 & B2); [reflexivity|change (2^8) with 256; lia|].
  rewrite E6. cbn [rbind].
  assert (EC : exists a, op v N.add five rest = Ok a /\ value a = fst (char_run (value pid) ivs) * 5 + snd (char_run (value pid) ivs) mod 5).
  { destruct v.
    - rewrite (A1 eq_refl), (B1 eq_refl). eexists. split; reflexivity.
    - rewrite (A2 eq_refl), (B2 eq_refl). eexists. split; [reflexivity|]. cbn [value]. apply N.mod_small.
      assert (2 ^ 8 <= 2 ^ N.max w 8) by (apply N.pow_le_mono_r; lia). change (2^8) with 256 in *. lia. }
  destruct EC as (ch & EC & VC). rewrite EC. cbn [rbind]. rewrite VC, stored_stats. reflexivity.
Qed.
End State.

(** Both versions. *)
Section Both.
Variables (junk : list N) (advance pid species form : scalar) (ivs : list N)
  (ability level shiny : scalar) (info : personal3).
Hypothesis Hj : length junk = 6%nat.
Hypothesis Hfit : fits 32 advance /\ fits 32 pid /\ fits 16 species /\ fits 8 form /\ fits 8 ability /\ fits 8 level /\ fits 8 shiny.
Hypothesis Hivs : Forall (fun x => x < 256) ivs.
Hypothesis Hinfo : info_ok info.

Lemma numpy1_same tag : (forall n, tag n = UInt 8 n \/ tag n = PyInt n) ->
  gstate_np NumPy_1 tag junk advance pid species form ivs ability level shiny info =
  gstate_new NumPy junk (value advance) (value pid) (value species) (value form) ivs (value ability) (value level) (value shiny) info.
Proof.
  intros Ht. destruct Hfit as (F1 & F2 & F3 & F4 & F5 & F6 & F7).
  rewrite gstate_np_ok; try assumption.
  2:{ intros i _. unfold raw_ok. destruct (Ht (aget (bases info) i)) as [E|E]; rewrite E; reflexivity. }
  unfold gstate_new. cbv zeta.
  rewrite (w32_small (value pid)) by exact F2. rewrite (w8_small (value level)) by exact F6.
  rewrite (w32_small (value advance)) by exact F1. rewrite (w16_small (value species)) by exact F3.
  rewrite (w8_small (value form)) by exact F4. rewrite (w8_small (value ability)) by exact F5.
  rewrite (w8_small (value shiny)) by exact F7.
  change [pi_hp info; pi_attack info; pi_defense info; pi_special_attack info; pi_special_defense info; pi_speed info] with (bases info).
  rewrite (update_loop (value pid) (value level) (bases info) ivs F6 (aget_bases info Hinfo) (aget_ivs ivs Hivs) junk Hj).
  cbn [rbind u_hpv u_hps u_stats u_char u_max_iv].
  rewrite <- stored_stats.
  pose proof (iv_bits_lt ivs 0) as B.
  assert (Hcr : fst (char_run (value pid) ivs) < 6) by apply char_run_spec.
  assert (Hmx : snd (char_run (value pid) ivs) mod 5 < 5) by (apply N.mod_lt; discriminate).
  rewrite (w8_small (iv_bits ivs 0 * 15 / 63)) by (apply N.div_lt_upper_bound; [discriminate|lia]).
  rewrite (w8_small (_ * 5 + _)) by lia.
  reflexivity.
Qed.

Lemma both_versions :
  exists st1 st2,
    gstate_np NumPy_1 (UInt 8) junk advance pid species form ivs ability level shiny info = Ok st1 /\
    gstate_np NumPy_2 (UInt 8) junk advance pid species form ivs ability level shiny info = Ok st2 /\
    g_advance st2 = g_advance st1 /\ g_pid st2 = g_pid st1 /\ g_species st2 = g_species st1 /\ g_form st2 = g_form st1 /\
    g_ability_index st2 = g_ability_index st1 /\ g_ivs st2 = g_ivs st1 /\ g_ability st2 = g_ability st1 /\
    g_characteristic st2 = g_characteristic st1 /\ g_gender st2 = g_gender st1 /\ g_level st2 = g_level st1 /\
    g_nature st2 = g_nature st1 /\ g_shiny st2 = g_shiny st1 /\
    g_stats st1 = stats_of NumPy_1 (value pid mod 25) (value level) (bases info) ivs /\
    g_stats st2 = stats_of NumPy_2 (value pid mod 25) (value level) (bases info) ivs /\
    g_hidden_power st1 = iv_bits ivs 0 * 15 / 63 /\
    g_hidden_power st2 = iv_bits ivs 0 * 15 mod 256 / 63 /\
    g_hidden_power_strength st1 = AFloat (power_float (iv_bits ivs 1 * 40)) /\
    g_hidden_power_strength st2 = AFloat (power_float (iv_bits ivs 1 * 40 mod 256)).
Proof.
  destruct Hfit as (F1 & F2 & F3 & F4 & F5 & F6 & F7).
  do 2 eexists.
  split; [apply gstate_np_ok; try assumption; intros; reflexivity|].
  split; [apply gstate_np_ok; try assumption; intros; reflexivity|].
  do 17 (split; [reflexivity|]). reflexivity.
Qed.

Lemma python_bases : 
  (Forall (fun b => b < 128) (bases info) ->
   gstate_np NumPy_2 PyInt junk advance pid species form ivs ability level shiny info =
   gstate_np NumPy_2 (UInt 8) junk advance pid species form ivs ability level shiny info) /\
  (Exists (fun b => 128 <= b) (bases info) ->
   gstate_np NumPy_2 PyInt junk advance pid species form ivs ability level shiny info = Raise OverflowError).
Proof.
  destruct Hfit as (F1 & F2 & F3 & F4 & F5 & F6 & F7). split.
  - intros Hb. rewrite !gstate_np_ok; try assumption; [reflexivity|intros; reflexivity|].
    intros i Hi. unfold raw_ok. rewrite raw_stat2p.
    rewrite Forall_forall in Hb. specialize (Hb (aget (bases info) i) (nth_In (bases info) 0 Hi)).
    destruct (N.ltb_spec (aget (bases info) i) 128); [reflexivity|lia].
  - intros Hb. apply Exists_nth in Hb. destruct Hb as (j & d & Hj6 & Hjb).
    rewrite (nth_indep _ d 0) in Hjb by exact Hj6. fold (aget (bases info) j) in Hjb.
    unfold gstate_np.
    rewrite !cast_ok by assumption. cbn [rbind].
    rewrite gender_np by exact F2. cbn [rbind].
    assert (H25 : value pid mod 25 < 25) by (apply N.mod_lt; discriminate).
    assert (H6 : value pid mod 6 < 6) by (apply N.mod_lt; discriminate).
    rewrite op2u by (change (2^32) with 4294967296; lia). cbn [rbind].
    change (op NumPy_2 N.modulo (UInt 32 (value pid)) (UInt 8 6)) with (@Ok scalar (UInt 32 (value pid mod 6 mod 2 ^ 32))). cbn [rbind value].
    rewrite (N.mod_small (value pid mod 6)) by (change (2^32) with 4294967296; lia).
    cbv zeta.
    change (map PyInt [pi_hp info; pi_attack info; pi_defense info; pi_special_attack info; pi_special_defense info; pi_speed info]) with (map PyInt (bases info)).
    assert (S0 : small NumPy_2 0 (UInt 8 0)) by (split; [reflexivity|eexists; reflexivity]).
    rewrite (loop_raise NumPy_2 (value pid) (value level) (bases info) ivs PyInt F2 F6 (aget_bases info Hinfo) (aget_ivs ivs Hivs) eq_refl 6 0 _ 32 (value pid mod 6));
      [reflexivity|lia|exact Hj|exact S0|exact S0|reflexivity|right; reflexivity| |].
    + intros k _. unfold raw_ok. rewrite raw_stat2p. destruct (aget (bases info) k <? 128); [left|right]; reflexivity.
    + exists j. split; [cbn in Hj6; lia|]. rewrite raw_stat2p. destruct (N.ltb_spec (aget (bases info) j) 128); [lia|reflexivity].
Qed.
End Both.

Lemma core2_le b iv level : core NumPy_2 b iv level <= 2.
Proof.
  unfold core. pose proof (N.mod_lt ((2 * b + iv) * level) 256 ltac:(discriminate)) as K.
  apply N.lt_succ_r. apply N.div_lt_upper_bound; [discriminate|]. lia.
Qed.
Lemma modified_small a b x : x <= 2 -> 4 <= modified a b (x + 5) <= 7.
Proof.
  intros H. assert (K : x = 0 \/ x = 1 \/ x = 2) by lia.
  destruct K as [-> | [-> | ->]]; destruct a, b; vm_compute; split; discriminate.
Qed.
Lemma stats2_low n level base ivs :
  exists hp others, stats_of NumPy_2 n level base ivs = hp :: others /\ hp <= level + 12 /\ Forall (fun s => 4 <= s <= 7) others.
Proof.
  unfold stats_of. eexists _, _. split; [reflexivity|].
  split; [pose proof (core2_le (nth 0 base 0) (nth 0 ivs 0) level); lia|].
  repeat constructor; apply modified_small, core2_le.
Qed.
Lemma hp_agree n n' level base ivs :
  nth 0 (stats_of NumPy_1 n level base ivs) 0 = nth 0 (stats_of NumPy_2 n' level base ivs) 0 <->
  (2 * nth 0 base 0 + nth 0 ivs 0) * level < 256.
Proof.
  unfold stats_of. cbn [nth]. unfold core. generalize ((2 * nth 0 base 0 + nth 0 ivs 0) * level). intros x.
  split.
  - intros H. destruct (N.lt_ge_cases x 256) as [L|L]; [exact L|]. exfalso.
    pose proof (N.mod_lt x 256 ltac:(discriminate)) as M. pose proof (N.div_mod x 256 ltac:(discriminate)) as D.
    assert (1 <= x / 256) by (apply N.div_le_lower_bound; [discriminate|lia]).
    assert (E : x / 100 = x mod 256 / 100) by lia.
    assert (E2 : x mod 256 / 100 < 3) by (apply N.div_lt_upper_bound; [discriminate|lia]).
    assert (L3 : x < 300).
    { pose proof (N.div_mod x 100 ltac:(discriminate)). pose proof (N.mod_lt x 100 ltac:(discriminate)). lia. }
    assert (x / 256 < 2) by (apply N.div_lt_upper_bound; [discriminate|lia]).
    assert (x mod 256 < 44) by lia.
    assert (x mod 256 / 100 = 0) by (apply N.div_small; lia).
    assert (2 <= x / 100) by (apply N.div_le_lower_bound; [discriminate|lia]). lia.
  - intros H. rewrite (N.mod_small x) by exact H. reflexivity.
Qed.

Lemma cast2 w a : (exists b, cast NumPy_2 w a = Ok b /\ ~ too_big w a) \/ (cast NumPy_2 w a = Raise OverflowError).
Proof.
  destruct a as [n|w' n|n]; cbn [cast too_big]; [|left; eexists; split; [reflexivity|tauto]..].
  destruct (N.ltb_spec n (2^w)); [left; eexists; split; [reflexivity|lia]|right; reflexivity].
Qed.
Lemma too_big_raises tag junk advance pid species form ivs ability level shiny info :
  too_big 32 advance \/ too_big 32 pid \/ too_big 16 species \/ too_big 8 form \/ too_big 8 ability \/ too_big 8 level \/ too_big 8 shiny ->
  gstate_np NumPy_2 tag junk advance pid species form ivs ability level shiny info = Raise OverflowError.
Proof.
  intros H. unfold gstate_np.
  destruct (cast2 32 advance) as [(a1 & E1 & N1)|E1]; rewrite E1; cbn [rbind]; [|reflexivity].
  destruct (cast2 32 pid) as [(a2 & E2 & N2)|E2]; rewrite E2; cbn [rbind]; [|reflexivity].
  destruct (cast2 16 species) as [(a3 & E3 & N3)|E3]; rewrite E3; cbn [rbind]; [|reflexivity].
  destruct (cast2 8 form) as [(a4 & E4 & N4)|E4]; rewrite E4; cbn [rbind]; [|reflexivity].
  destruct (cast2 8 ability) as [(a5 & E5 & N5)|E5]; rewrite E5; cbn [rbind]; [|reflexivity].
  destruct (cast2 8 level) as [(a6 & E6 & N6)|E6]; rewrite E6; cbn [rbind]; [|reflexivity].
  destruct (cast2 8 shiny) as [(a7 & E7 & N7)|E7]; rewrite E7; cbn [rbind]; [|reflexivity].
  exfalso. tauto.
Qed.

(** The functions of gen3/util.py. *)
Lemma lt_land_l x m w : x < 2 ^ w -> N.land x m < 2 ^ w.
Proof.
  intros H. destruct (N.eq_dec (N.land x m) 0) as [->|Hz]; [lia|].
  apply N.log2_lt_pow2; [lia|]. eapply N.le_lt_trans; [apply N.log2_land|].
  destruct (N.eq_dec x 0) as [->|]; [rewrite N.land_0_l in Hz; congruence|].
  assert (N.log2 x < w) by (apply N.log2_lt_pow2; lia). lia.
Qed.
Lemma lt_shiftr x k w : x < 2 ^ w -> N.shiftr x k < 2 ^ w.
Proof.
  intros H. rewrite N.shiftr_div_pow2.
  assert (x / 2 ^ k <= x / 1) by (apply N.div_le_compat_l; split; [lia|]; pose proof (N.pow_nonzero 2 k ltac:(discriminate)); lia).
  rewrite N.div_1_r in *. lia.
Qed.
Lemma log2_small x w : 0 < w -> x < 2 ^ w -> N.log2 x < w.
Proof. intros Hw H. destruct (N.eq_dec x 0) as [->|]; [exact Hw|]. apply N.log2_lt_pow2; lia. Qed.
Lemma lt_lxor x y w : 0 < w -> x < 2 ^ w -> y < 2 ^ w -> N.lxor x y < 2 ^ w.
Proof.
  intros Hw H K. destruct (N.eq_dec (N.lxor x y) 0) as [->|Hz]; [lia|].
  apply N.log2_lt_pow2; [lia|]. eapply N.le_lt_trans; [apply N.log2_lxor|].
  apply N.max_lub_lt; apply log2_small; assumption.
Qed.
Lemma lt_lor x y w : 0 < w -> x < 2 ^ w -> y < 2 ^ w -> N.lor x y < 2 ^ w.
Proof.
  intros Hw H K. destruct (N.eq_dec (N.lor x y) 0) as [->|Hz]; [lia|].
  apply N.log2_lt_pow2; [lia|]. rewrite N.log2_lor.
  apply N.max_lub_lt; apply log2_small; assumption.
Qed.
Definition same_kind (v : numpy) (n : N) : scalar := match v with NumPy_1 => SInt n | NumPy_2 => UInt 32 n end.
Lemma fin32 v f x y : y < 2 ^ 32 -> f x y < 2 ^ 32 -> op v f (UInt 32 x) (PyInt y) = Ok (same_kind v (f x y)).
Proof. intros. destruct v; [reflexivity|]. rewrite op2u by assumption. reflexivity. Qed.
Lemma fin32' v f x y : y < 2 ^ 32 -> f x y < 2 ^ 32 -> op v f (same_kind v x) (PyInt y) = Ok (same_kind v (f x y)).
Proof. intros. destruct v; [reflexivity|]. cbn [same_kind]. rewrite op2u by assumption. reflexivity. Qed.
Lemma two32 v f x y : f x y < 2 ^ 32 -> op v f (same_kind v x) (same_kind v y) = Ok (same_kind v (f x y)).
Proof. intros H. destruct v; [reflexivity|]. cbn [same_kind op]. change (N.max 32 32) with 32. rewrite N.mod_small by exact H. reflexivity. Qed.
Lemma value_kind v n : value (same_kind v n) = n.
Proof. destruct v; reflexivity. Qed.

Lemma shiny_np v pid tsv : pid < 2 ^ 32 -> tsv < 2 ^ 16 -> get_shiny_of v (UInt 32 pid) (UInt 16 tsv) = Ok (get_shiny pid tsv).
Proof.
  intros Hp Ht. unfold get_shiny_of, get_shiny.
  assert (H1 : N.shiftr pid 16 < 2^32) by (apply lt_shiftr; exact Hp).
  assert (H2 : N.land pid 0xFFFF < 2^32) by (apply lt_land_l; exact Hp).
  rewrite fin32 by (try reflexivity; exact H1). cbn [rbind].
  rewrite fin32 by (try reflexivity; exact H2). cbn [rbind].
  assert (H3 : N.lxor (N.shiftr pid 16) (N.land pid 0xFFFF) < 2^32) by (apply lt_lxor; [reflexivity|assumption..]).
  rewrite two32 by exact H3. cbn [rbind]. rewrite value_kind. cbn [value]. cbv zeta.
  destruct (tsv =? _); [reflexivity|].
  assert (E : op v N.lxor (UInt 16 tsv) (same_kind v (N.lxor (N.shiftr pid 16) (N.land pid 0xFFFF))) =
              Ok (same_kind v (N.lxor tsv (N.lxor (N.shiftr pid 16) (N.land pid 0xFFFF))))).
  { destruct v; [reflexivity|]. cbn [same_kind op]. change (N.max 16 32) with 32. rewrite N.mod_small; [reflexivity|].
    apply lt_lxor; [reflexivity| |exact H3]. change (2^16) with 65536 in Ht. change (2^32) with 4294967296. lia. }
  rewrite E. cbn [rmap]. rewrite value_kind. reflexivity.
Qed.
Lemma unown_np v pid form : pid < 2 ^ 32 -> unown_check_of v (UInt 32 pid) (UInt 8 form) = Ok (unown_check pid form).
Proof.
  intros Hp. unfold unown_check_of, unown_check. cbv zeta.
  assert (HL : forall m, N.land pid m < 2^32) by (intros; apply lt_land_l; exact Hp).
  assert (HS : forall m k, N.shiftr (N.land pid m) k < 2^32) by (intros; apply lt_shiftr, HL).
  rewrite !fin32 by (try reflexivity; apply HL). cbn [rbind].
  rewrite !fin32' by (try reflexivity; apply HS). cbn [rbind].
  rewrite two32 by (apply lt_lor; [reflexivity|apply HS..]). cbn [rbind].
  rewrite two32 by (apply lt_lor; [reflexivity|apply lt_lor; [reflexivity|apply HS..]|apply HS]). cbn [rbind].
  rewrite two32 by (apply lt_lor; [reflexivity|apply lt_lor; [reflexivity|apply lt_lor; [reflexivity|apply HS..]|apply HS]|apply HL]). cbn [rbind].
  rewrite fin32'; [|reflexivity|].
  - cbn [rbind]. rewrite value_kind. reflexivity.
  - eapply N.lt_trans; [apply N.mod_lt; discriminate|reflexivity].
Qed.

(** Jumps. *)
Lemma with_literal2_ok f a : exists b, with_literal2 f a = Ok b /\ value b = f (value a).
Proof. destruct a; cbn; eauto. Qed.
Ltac both2 a :=
  let E1 := fresh in let V1 := fresh in let E2 := fresh in let V2 := fresh in
  destruct (with_literal2_ok (fun n => N.land n 1) a) as (bit & E1 & V1);
  destruct (with_literal2_ok (fun n => N.shiftr n 1) a) as (half & E2 & V2);
  rewrite ?E1, ?E2; cbn [rbind]; rewrite V1, odd_land;
  change (N.shiftr (value a) 1) with (N.div2 (value a)) in V2; rewrite <- V2.
Lemma jump_loop2_32 tbl : forall fuel seed a i, jump_loop2 w32 fuel tbl seed a i = jump32_loop fuel tbl seed (value a) i.
Proof.
  induction fuel as [|f IH]; intros seed a i; cbn [jump_loop2 jump32_loop];
    (destruct (value a =? 0); [reflexivity|]); [reflexivity|].
  both2 a. destruct (N.odd (value a)); cbn [negb].
  - destruct (nth_error tbl i) as [[add mult]|]; [apply IH|reflexivity].
  - apply IH.
Qed.
Lemma jump_loop2_64 tbl : forall fuel seed a i, jump_loop2 w64 fuel tbl seed a i = jump64_loop fuel tbl seed (value a) i.
Proof.
  induction fuel as [|f IH]; intros seed a i; cbn [jump_loop2 jump64_loop];
    (destruct (value a =? 0); [reflexivity|]); [reflexivity|].
  both2 a. destruct (N.odd (value a)); cbn [negb].
  - destruct (nth_error tbl i) as [[add mult]|]; [apply IH|reflexivity].
  - apply IH.
Qed.
Lemma const_jump_loop2_32 tbl : forall fuel add mult a i,
  const_jump_loop2 w32 fuel tbl add mult a i = const_jump32_loop fuel tbl add mult (value a) i.
Proof.
  induction fuel as [|f IH]; intros add mult a i; cbn [const_jump_loop2 const_jump32_loop];
    (destruct (value a =? 0); [reflexivity|]); [reflexivity|].
  destruct (nth_error tbl i) as [[add' mult']|]; [|reflexivity].
  both2 a. destruct (N.odd (value a)); cbn [negb]; apply IH.
Qed.
Lemma const_jump_loop2_64 tbl : forall fuel add mult a i,
  const_jump_loop2 w64 fuel tbl add mult a i = const_jump64_loop fuel tbl add mult (value a) i.
Proof.
  induction fuel as [|f IH]; intros add mult a i; cbn [const_jump_loop2 const_jump64_loop];
    (destruct (value a =? 0); [reflexivity|]); [reflexivity|].
  destruct (nth_error tbl i) as [[add' mult']|]; [|reflexivity].
  both2 a. destruct (N.odd (value a)); cbn [negb]; apply IH.
Qed.
Lemma jumps2 add mult seed adv :
  lcrng32_jump_np2 add mult seed adv = lcrng32_jump add mult seed (value adv) /\
  lcrng64_jump_np2 add mult seed adv = lcrng64_jump add mult seed (value adv) /\
  lcrng32_const_jump_np2 add mult adv = lcrng32_const_jump add mult (value adv) /\
  lcrng64_const_jump_np2 add mult adv = lcrng64_const_jump add mult (value adv).
Proof.
  unfold lcrng32_const_jump_np2, lcrng64_const_jump_np2. rewrite const_jump_loop2_32, const_jump_loop2_64.
  split; [apply jump_loop2_32|]. split; [apply jump_loop2_64|]. split; reflexivity.
Qed.

Lemma util_np v pid ratio tsv form : pid < 2^32 -> tsv < 2^16 ->
  get_gender_of v (UInt 32 pid) (UInt 8 ratio) = Ok (get_gender pid ratio) /\
  get_shiny_of v (UInt 32 pid) (UInt 16 tsv) = Ok (get_shiny pid tsv) /\
  unown_check_of v (UInt 32 pid) (UInt 8 form) = Ok (unown_check pid form).
Proof. intros Hp Ht. split; [apply gender_np|split; [apply shiny_np|apply unown_np]]; assumption. Qed.

Lemma numpy2_low junk advance pid species form ivs ability level shiny info st :
  length junk = 6%nat ->
  fits 32 advance /\ fits 32 pid /\ fits 16 species /\ fits 8 form /\ fits 8 ability /\ fits 8 level /\ fits 8 shiny ->
  Forall (fun x => x < 256) ivs -> info_ok info ->
  gstate_np NumPy_2 (UInt 8) junk advance pid species form ivs ability level shiny info = Ok st ->
  (exists hp others, g_stats st = hp :: others /\ hp <= value level + 12 /\ Forall (fun s => 4 <= s <= 7) others) /\
  g_hidden_power st <= 4 /\
  (nth 0 (g_stats st) 0 = hp_stat (pi_hp info) (nth 0 ivs 0) (value level) <->
   (2 * pi_hp info + nth 0 ivs 0) * value level < 256).
Proof.
  intros Hj (F1 & F2 & F3 & F4 & F5 & F6 & F7) Hi Hinfo. rewrite gstate_np_ok; try assumption; [|intros; reflexivity].
  intros H. assert (E : g_stats st = stats_of NumPy_2 (value pid mod 25) (value level) (bases info) ivs /\
                        g_hidden_power st = iv_bits ivs 0 * 15 mod 256 / 63).
  { match type of H with Ok ?x = _ => assert (K : x = st) by (inversion H; reflexivity) end.
    rewrite <- K. split; reflexivity. }
  destruct E as [E1 E2]. rewrite E1, E2. split; [apply stats2_low|]. split.
  - pose proof (N.mod_lt (iv_bits ivs 0 * 15) 256 ltac:(discriminate)). apply N.lt_succ_r.
    apply N.div_lt_upper_bound; [discriminate|]. lia.
  - pose proof (hp_agree 0 (value pid mod 25) (value level) (bases info) ivs) as K.
    change (nth 0 (stats_of NumPy_1 0 (value level) (bases info) ivs) 0) with (hp_stat (pi_hp info) (nth 0 ivs 0) (value level)) in K.
    change (nth 0 (bases info) 0) with (pi_hp info) in K.
    split; intros Q; [apply K; symmetry; exact Q|symmetry; apply K; exact Q].
Qed.

Lemma natures_same : NATURE_MODIFIERS2 = NATURE_MODIFIERS.
Proof. vm_compute. reflexivity. Qed.

Lemma float_state m st minimum maximum :
  fst (xs_next_float_randrange2 m st minimum maximum) = fst (xs_next_float_randrange m st minimum maximum).
Proof. unfold xs_next_float_randrange2, xs_next_float_randrange. destruct (xs_next m st). reflexivity. Qed.
Lemma float_differs :
  snd (xs_next_float_randrange NumPy [1; 2; 3; 4] (f32_of_N 3) (f32_of_N 12)) = S754_finite false 6754154638606336 (-49)%Z /\
  snd (xs_next_float_randrange2 NumPy [1; 2; 3; 4] (f32_of_N 3) (f32_of_N 12)) = S754_finite false 12580593 (-20)%Z.
Proof. split; vm_compute; reflexivity. Qed.
