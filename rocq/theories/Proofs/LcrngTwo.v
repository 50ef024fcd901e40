(** Two outputs of an LCRNG: how many seeds they leave. *)
From Coq Require Import ZArith NArith List Bool Lia.
From Verif Require Import Base.Word Base.WordLemmas Model.Compat Model.Lcrng32 Model.Lcrng64
  Model.LcrngClasses Spec.RecoverSpec Proofs.LcrngRecover.
Import ListNotations.
Ltac Zify.zify_post_hook ::= idtac.
Open Scope Z_scope.

(** ** The differences of two states with the same high halves twice *)
Ltac small_cases i j :=
  assert (-2 <= i <= 2) by lia; assert (-2 <= j <= 2) by lia;
  assert (i = -2 \/ i = -1 \/ i = 0 \/ i = 1 \/ i = 2) as [->|[->|[->|[->| ->]]]] by lia;
  assert (j = -2 \/ j = -1 \/ j = 0 \/ j = 1 \/ j = 2) as [->|[->|[->|[->| ->]]]] by lia; lia.

Lemma diffs_ARNG d e q : e = 1812433253 * d + 4294967296 * q -> Z.abs d < 65536 -> Z.abs e < 65536 ->
  In d [-46603; -28804; 0; 28804; 46603].
Proof.
  intros E D F. remember ((-12155) * d - 28804 * q) as i. remember (46603 * q - (-19666) * d) as j.
  assert (Hd : d = (-46603) * i + (-28804) * j) by lia.
  assert (He : e = (-46423) * i + 63468 * j) by lia.
  clear Heqi Heqj E q. cbn [In]. small_cases i j.
Qed.
Lemma diffs_ARNGR d e q : e = 2520285293 * d + 4294967296 * q -> Z.abs d < 65536 -> Z.abs e < 65536 ->
  In d [-63468; -46423; 0; 46423; 63468].
Proof.
  intros E D F. remember ((-37243) * d - 63468 * q) as i. remember (46423 * q - (-27241) * d) as j.
  assert (Hd : d = (-46423) * i + (-63468) * j) by lia.
  assert (He : e = (-46603) * i + 28804 * j) by lia.
  clear Heqi Heqj E q. cbn [In]. small_cases i j.
Qed.
Lemma diffs_XD d e q : e = 214013 * d + 4294967296 * q -> Z.abs d < 65536 -> Z.abs e < 65536 ->
  In d [-60206; -20069; 0; 20069; 60206].
Proof.
  intros E D F. remember ((-3) * d - 60206 * q) as i. remember (20069 * q - (-1) * d) as j.
  assert (Hd : d = (-20069) * i + (-60206) * j) by lia.
  assert (He : e = (-59601) * i + 35210 * j) by lia.
  clear Heqi Heqj E q. cbn [In]. small_cases i j.
Qed.
Lemma diffs_XDR d e q : e = 3115528533 * d + 4294967296 * q -> Z.abs d < 65536 -> Z.abs e < 65536 ->
  In d [-59601; -35210; 0; 35210; 59601].
Proof.
  intros E D F. remember ((-25541) * d - 35210 * q) as i. remember (59601 * q - (-43234) * d) as j.
  assert (Hd : d = (-59601) * i + (-35210) * j) by lia.
  assert (He : e = (-20069) * i + 60206 * j) by lia.
  clear Heqi Heqj E q. cbn [In]. small_cases i j.
Qed.
Lemma diffs_PokeR d e q : e = 4005161829 * d + 4294967296 * q -> Z.abs d < 65536 -> Z.abs e < 65536 ->
  In d [-64942; -32471; 0; 32471; 64942].
Proof.
  intros E D F. remember (63711 * d - (-68321) * q) as i. remember (32471 * q - (-30280) * d) as j.
  assert (Hd : d = 32471 * i + (-68321) * j) by lia.
  assert (He : e = 26579 * i + 76347 * j) by lia.
  clear Heqi Heqj E q. cbn [In]. small_cases i j.
Qed.
Lemma diffs_Poke d e q : e = 1103515245 * d + 4294967296 * q -> Z.abs d < 65536 -> Z.abs e < 65536 ->
  In d [-53158; -26579; 0; 26579; 53158].
Proof.
  intros E D F. remember ((-19616) * d - 76347 * q) as i. remember ((-26579) * q - 6829 * d) as j.
  assert (Hd : d = (-26579) * i + 76347 * j) by lia.
  assert (He : e = (-32471) * i + (-68321) * j) by lia.
  clear Heqi Heqj E q. cbn [In]. small_cases i j.
Qed.
Lemma diffs_BW d e q : e = 6726279311198226789 * d + 18446744073709551616 * q -> Z.abs d < 4294967296 -> Z.abs e < 4294967296 ->
  In d [-3688131939; -1993949321; 0; 1993949321; 3688131939].
Proof.
  intros E D F. remember ((-1344812150) * d - 3688131939 * q) as i. remember ((-1993949321) * q - 727058391 * d) as j.
  assert (Hd : d = (-1993949321) * i + 3688131939 * j) by lia.
  assert (He : e = (-3070150413) * i + (-3572620529) * j) by lia.
  clear Heqi Heqj E q. cbn [In]. small_cases i j.
Qed.
Lemma diffs_BWR d e q : e = 16058971705396723821 * d + 18446744073709551616 * q -> Z.abs d < 4294967296 -> Z.abs e < 4294967296 ->
  In d [-3572620529; -3070150413; 0; 3070150413; 3572620529].
Proof.
  intros E D F. remember ((-3110175528) * d - 3572620529 * q) as i. remember ((-3070150413) * q - 2672745847 * d) as j.
  assert (Hd : d = (-3070150413) * i + 3572620529 * j) by lia.
  assert (He : e = (-1993949321) * i + (-3688131939) * j) by lia.
  clear Heqi Heqj E q. cbn [In]. small_cases i j.
Qed.

(** ** Counting *)
Definition mem (x : Z) (L : list Z) : bool := existsb (Z.eqb x) L.
Lemma mem_in x L : mem x L = true <-> In x L.
Proof.
  unfold mem. rewrite existsb_exists. split.
  - intros [y [H E]]. apply Z.eqb_eq in E. now subst.
  - intros H. exists x. split; [assumption|apply Z.eqb_refl].
Qed.
(** No two, or three, different members of [L] other than 0 differ by members. *)
Definition apart (L : list Z) (x y : Z) : bool := negb (x =? y) && mem (x - y) L.
Definition free2 (L : list Z) : bool :=
  forallb (fun x => forallb (fun y => (x =? 0) || (y =? 0) || negb (apart L x y)) L) L.
Definition free3 (L : list Z) : bool :=
  forallb (fun x => forallb (fun y => forallb (fun z =>
    (x =? 0) || (y =? 0) || (z =? 0) || negb (apart L x y && apart L x z && apart L y z)) L) L) L.

Lemma apart_true L x y : x <> y -> In (x - y) L -> apart L x y = true.
Proof.
  intros H I. unfold apart. apply Z.eqb_neq in H. rewrite H. apply mem_in in I. now rewrite I.
Qed.

Section Count.
Variable A : Type.
Variables (g : A -> Z) (L : list Z) (l : list A).
Hypothesis pairs : forall x y, In x l -> In y l -> x <> y -> g x <> g y /\ In (g x - g y) L.

Lemma at_most_2 : free2 L = true -> NoDup l -> (length l <= 2)%nat.
Proof.
  intros F D. revert pairs D. destruct l as [|a [|b [|c t]]]; cbn [length]; intros P D; try lia. exfalso.
  inversion D as [|? ? Da D1]; subst. inversion D1 as [|? ? Db D2]; subst.
  assert (a <> b) by (intros ->; apply Da; cbn; auto). assert (a <> c) by (intros ->; apply Da; cbn; auto).
  assert (b <> c) by (intros ->; apply Db; cbn; auto).
  destruct (P a c) as [N1 I1]; [cbn; auto..|]. destruct (P b c) as [N2 I2]; [cbn; auto..|].
  destruct (P a b) as [N3 I3]; [cbn; auto..|].
  unfold free2 in F. rewrite forallb_forall in F. specialize (F _ I1). rewrite forallb_forall in F. specialize (F _ I2).
  rewrite (apart_true L (g a - g c) (g b - g c)) in F.
  - destruct (Z.eqb_spec (g a - g c) 0), (Z.eqb_spec (g b - g c) 0); cbn in F; try discriminate; lia.
  - lia.
  - now replace (g a - g c - (g b - g c)) with (g a - g b) by ring.
Qed.

Lemma at_most_3 : free3 L = true -> NoDup l -> (length l <= 3)%nat.
Proof.
  intros F D. revert pairs D. destruct l as [|a [|b [|c [|e t]]]]; cbn [length]; intros P D; try lia. exfalso.
  inversion D as [|? ? Da D1]; subst. inversion D1 as [|? ? Db D2]; subst. inversion D2 as [|? ? Dc D3]; subst.
  assert (a <> b) by (intros ->; apply Da; cbn; auto). assert (a <> c) by (intros ->; apply Da; cbn; auto).
  assert (a <> e) by (intros ->; apply Da; cbn; auto). assert (b <> e) by (intros ->; apply Db; cbn; auto).
  assert (b <> c) by (intros ->; apply Db; cbn; auto). assert (c <> e) by (intros ->; apply Dc; cbn; auto).
  destruct (P a e) as [N1 I1]; [cbn; auto..|]. destruct (P b e) as [N2 I2]; [cbn; auto..|].
  destruct (P c e) as [N3 I3]; [cbn; auto 6..|]. destruct (P a b) as [N4 I4]; [cbn; auto..|].
  destruct (P a c) as [N5 I5]; [cbn; auto..|]. destruct (P b c) as [N6 I6]; [cbn; auto..|].
  assert (Z1 : g a - g e <> 0) by lia. assert (Z2 : g b - g e <> 0) by lia. assert (Z3 : g c - g e <> 0) by lia.
  unfold free3 in F. rewrite forallb_forall in F. specialize (F _ I1). rewrite forallb_forall in F. specialize (F _ I2).
  rewrite forallb_forall in F. specialize (F _ I3).
  rewrite (apart_true L (g a - g e) (g b - g e)), (apart_true L (g a - g e) (g c - g e)),
    (apart_true L (g b - g e) (g c - g e)) in F; [|lia| |lia| |lia|].
  - apply Z.eqb_neq in Z1, Z2, Z3. rewrite Z1, Z2, Z3 in F. discriminate.
  - now replace (g b - g e - (g c - g e)) with (g b - g c) by ring.
  - now replace (g a - g e - (g c - g e)) with (g a - g c) by ring.
  - now replace (g a - g e - (g b - g e)) with (g a - g b) by ring.
Qed.
End Count.

(** ** The generators *)
Lemma pairs32 add mult k L inv r l : Z.of_N mult = k ->
  (forall d e q, e = k * d + 4294967296 * q -> Z.abs d < 65536 -> Z.abs e < 65536 -> In d L) ->
  (Z.of_N mult * inv) mod 4294967296 = 1 mod 4294967296 ->
  (forall s, In s l -> (s < 4294967296)%N /\ results (lcrng32_next_u16 add mult) 2 s = r) ->
  forall x y, In x l -> In y l -> x <> y ->
    Z.of_N (lcrng32_next add mult x) <> Z.of_N (lcrng32_next add mult y) /\
    In (Z.of_N (lcrng32_next add mult x) - Z.of_N (lcrng32_next add mult y)) L.
Proof.
  intros <- HL HI H x y Hx Hy Hn. destruct (H x Hx) as [Lx Rx]. destruct (H y Hy) as [Ly Ry].
  rewrite <- Ry in Rx. clear Ry H. split.
  - intros E. apply Hn. apply N2Z.inj in E.
    apply (step_injective 4294967296 (lcrng32_next add mult) add mult x y inv); try assumption; try lia.
    exact (next32_Z _ _).
  - unfold results, lcrng32_next_u16 in Rx. cbv zeta iota beta in Rx.
    set (f := lcrng32_next add mult) in *. destruct (cons2 _ _ _ _ Rx) as [E1 E2]. clear Rx.
    apply u16_close in E1; try apply next32_lt. apply u16_close in E2; try apply next32_lt.
    destruct (next_diff 4294967296 f add mult (f x) (f y) ltac:(discriminate) (next32_Z _ _)) as [q Q].
    exact (HL _ _ _ Q E1 E2).
Qed.
Lemma pairs64 add mult k L inv r l : Z.of_N mult = k ->
  (forall d e q, e = k * d + 18446744073709551616 * q -> Z.abs d < 4294967296 -> Z.abs e < 4294967296 -> In d L) ->
  (Z.of_N mult * inv) mod 18446744073709551616 = 1 mod 18446744073709551616 ->
  (forall s, In s l -> (s < 18446744073709551616)%N /\ results (lcrng64_next_u32 add mult) 2 s = r) ->
  forall x y, In x l -> In y l -> x <> y ->
    Z.of_N (lcrng64_next add mult x) <> Z.of_N (lcrng64_next add mult y) /\
    In (Z.of_N (lcrng64_next add mult x) - Z.of_N (lcrng64_next add mult y)) L.
Proof.
  intros <- HL HI H x y Hx Hy Hn. destruct (H x Hx) as [Lx Rx]. destruct (H y Hy) as [Ly Ry].
  rewrite <- Ry in Rx. clear Ry H. split.
  - intros E. apply Hn. apply N2Z.inj in E.
    apply (step_injective 18446744073709551616 (lcrng64_next add mult) add mult x y inv); try assumption; try lia.
    exact (next64_Z _ _).
  - unfold results, lcrng64_next_u32 in Rx. cbv zeta iota beta in Rx.
    set (f := lcrng64_next add mult) in *. destruct (cons2 _ _ _ _ Rx) as [E1 E2]. clear Rx.
    apply u32_close in E1; try apply next64_lt. apply u32_close in E2; try apply next64_lt.
    destruct (next_diff 18446744073709551616 f add mult (f x) (f y) ltac:(discriminate) (next64_Z _ _)) as [q Q].
    exact (HL _ _ _ Q E1 E2).
Qed.

Lemma two_outputs_published32 minor p add mult l r :
  In p published32 -> consts_of32 minor p = Ok (add, mult) -> NoDup l ->
  (forall s, In s l -> (s < 2 ^ 32)%N /\ results (lcrng32_next_u16 add mult) 2 s = r) ->
  (length l <= if (p32_mult p =? 0x41C64E6D)%N then 3 else 2)%nat.
Proof.
  change (2 ^ 32)%N with 4294967296%N. intros Hp Hc D H.
  assert (Poke : (add, mult) = (0x6073, 0x41C64E6D)%N -> (length l <= 3)%nat).
  { intros C. injection C as -> ->.
    exact (at_most_3 _ _ _ l (pairs32 _ 0x41C64E6D%N _ _ 0xEEB9EB65 r l eq_refl diffs_Poke eq_refl H) eq_refl D). }
  assert (PokeR : (add, mult) = (0xA3561A1, 0xEEB9EB65)%N -> (length l <= 3)%nat).
  { intros C. injection C as -> ->.
    exact (at_most_3 _ _ _ l (pairs32 _ 0xEEB9EB65%N _ _ 0x41C64E6D r l eq_refl diffs_PokeR eq_refl H) eq_refl D). }
  unfold published32 in Hp. cbn [In] in Hp. unfold consts_of32 in Hc.
  repeat (destruct Hp as [<-|Hp]; [cbn [p32_add p32_mult p32_rev PokeRNGMod PokeRNGDiv PokeRNGRMod PokeRNGRDiv ARNG ARNGR XDRNG XDRNGR] in Hc|]).
  - apply Poke. vm_compute in Hc. now inversion Hc.
  - apply Poke. vm_compute in Hc. now inversion Hc.
  - apply PokeR. rewrite consts32_poke_r in Hc. now inversion Hc.
  - apply PokeR. rewrite consts32_poke_r in Hc. now inversion Hc.
  - vm_compute in Hc. injection Hc as <- <-.
    exact (at_most_2 _ _ _ l (pairs32 _ 0x6C078965%N _ _ 0x9638806D r l eq_refl diffs_ARNG eq_refl H) eq_refl D).
  - rewrite consts32_arng_r in Hc. injection Hc as <- <-.
    exact (at_most_2 _ _ _ l (pairs32 _ 0x9638806D%N _ _ 0x6C078965 r l eq_refl diffs_ARNGR eq_refl H) eq_refl D).
  - vm_compute in Hc. injection Hc as <- <-.
    exact (at_most_2 _ _ _ l (pairs32 _ 0x343FD%N _ _ 0xB9B33155 r l eq_refl diffs_XD eq_refl H) eq_refl D).
  - rewrite consts32_xd_r in Hc. injection Hc as <- <-.
    exact (at_most_2 _ _ _ l (pairs32 _ 0xB9B33155%N _ _ 0x343FD r l eq_refl diffs_XDR eq_refl H) eq_refl D).
  - destruct Hp.
Qed.

Lemma two_outputs_published64 minor p add mult l r :
  In p published64 -> consts_of64 minor p = Ok (add, mult) -> NoDup l ->
  (forall s, In s l -> (s < 2 ^ 64)%N /\ results (lcrng64_next_u32 add mult) 2 s = r) ->
  (length l <= 2)%nat.
Proof.
  change (2 ^ 64)%N with 18446744073709551616%N. intros Hp Hc D H.
  unfold published64 in Hp. cbn [In] in Hp. unfold consts_of64 in Hc.
  repeat (destruct Hp as [<-|Hp]; [cbn [p64_add p64_mult p64_rev BWRNG BWRNGR] in Hc|]).
  - vm_compute in Hc. injection Hc as <- <-.
    exact (at_most_2 _ _ _ l (pairs64 _ 0x5D588B656C078965%N _ _ 0xDEDCEDAE9638806D r l eq_refl diffs_BW eq_refl H) eq_refl D).
  - rewrite consts64_bw_r in Hc. injection Hc as <- <-.
    exact (at_most_2 _ _ _ l (pairs64 _ 0xDEDCEDAE9638806D%N _ _ 0x5D588B656C078965 r l eq_refl diffs_BWR eq_refl H) eq_refl D).
  - destruct Hp.
Qed.
