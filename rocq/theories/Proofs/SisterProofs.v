(** Seeds that differ in their highest bit. *)
From Coq Require Import NArith ZArith List Bool Lia.
From Verif Require Import Base.Word Base.WordLemmas Model.Lcrng32 Model.Lcrng64 Model.LcrngClasses
  Model.Gen3State Model.Gen3Area Model.Gen3Wild
  Spec.LcrngSpec Spec.Gen3Spec Spec.Gen3WildSpec Spec.RecoverSpec Spec.SisterSpec
  Proofs.Gen3AreaProofs Proofs.Gen3Pid Proofs.Gen3Props Proofs.LcrngRecover Proofs.Gen3Recover Proofs.SpreadProofs.
Import ListNotations.
Ltac Zify.zify_post_hook ::= idtac.
Open Scope N_scope.

(** ** Flipping the highest bit is adding half of the range *)
Lemma flip_low k x : x < 2 ^ k -> N.lxor x (2 ^ k) = x + 2 ^ k.
Proof.
  intros H. symmetry. apply N.add_nocarry_lxor. apply N.bits_inj_0. intros n. rewrite N.land_spec, N.pow2_bits_eqb.
  destruct (N.eqb_spec k n) as [<-|_]; [|apply andb_false_r]. now rewrite (bits_above_lt x k) by (exact H || lia).
Qed.
Lemma flip_cases k x : x < 2 * 2 ^ k -> (x < 2 ^ k /\ N.lxor x (2 ^ k) = x + 2 ^ k) \/ (2 ^ k <= x /\ N.lxor x (2 ^ k) = x - 2 ^ k).
Proof.
  intros H. destruct (N.lt_ge_cases x (2 ^ k)) as [L|L]; [left; split; [exact L|now apply flip_low]|right; split; [exact L|]].
  assert (E : x = N.lxor (x - 2 ^ k) (2 ^ k)) by (rewrite flip_low; lia).
  rewrite E at 1. rewrite N.lxor_assoc, N.lxor_nilpotent, N.lxor_0_r. reflexivity.
Qed.
Lemma step_flip k a c x : N.odd a = true -> x < 2 * 2 ^ k ->
  (N.lxor x (2 ^ k) * a + c) mod (2 * 2 ^ k) = N.lxor ((x * a + c) mod (2 * 2 ^ k)) (2 ^ k).
Proof.
  intros Ha Hx. set (h := 2 ^ k) in *. assert (P : h <> 0) by (apply N.pow_nonzero; discriminate).
  assert (Q : 2 * h <> 0) by lia.
  pose proof (N.mod_lt (x * a + c) (2 * h) Q) as R. destruct (flip_cases k _ R) as [[R1 R2]|[R1 R2]]; fold h in R1, R2; rewrite R2; clear R2.
  all: apply N.odd_spec in Ha; destruct Ha as [b ->].
  all: pose proof (N.div_mod (x * (2 * b + 1) + c) (2 * h) Q) as D;
       set (r := (x * (2 * b + 1) + c) mod (2 * h)) in *; set (q := (x * (2 * b + 1) + c) / (2 * h)) in *; clearbody r q.
  all: destruct (flip_cases k x Hx) as [[X1 X2]|[X1 X2]]; fold h in X1, X2; rewrite X2; clear X2; symmetry; clearbody h.
  - apply (N.mod_unique _ _ (q + b)); [lia|].
    replace ((x + h) * (2 * b + 1) + c) with (x * (2 * b + 1) + c + 2 * h * b + h) by ring. rewrite D. ring.
  - assert (Y : exists y, x = y + h) by (exists (x - h); lia). destruct Y as [y ->].
    assert (B : b < q) by nia. assert (P' : exists p, q = p + b + 1) by (exists (q - b - 1); lia). destruct P' as [p ->].
    replace (y + h - h) with y by lia.
    replace ((y + h) * (2 * b + 1) + c) with (y * (2 * b + 1) + c + (2 * h * b + h)) in D by ring.
    apply (N.mod_unique _ _ p); [lia|]. apply (N.add_cancel_r _ _ (2 * h * b + h)). rewrite D. ring.
  - apply (N.mod_unique _ _ (q + b + 1)); [lia|].
    replace ((x + h) * (2 * b + 1) + c) with (x * (2 * b + 1) + c + 2 * h * b + h) by ring. rewrite D.
    assert (Z : exists z, r = z + h) by (exists (r - h); lia). destruct Z as [z ->]. replace (z + h - h) with z by lia. ring.
  - assert (Y : exists y, x = y + h) by (exists (x - h); lia). destruct Y as [y ->].
    assert (B : b <= q) by nia. assert (P' : exists p, q = p + b) by (exists (q - b); lia). destruct P' as [p ->].
    assert (Z : exists z, r = z + h) by (exists (r - h); lia). destruct Z as [z ->]. replace (z + h - h) with z by lia.
    replace (y + h - h) with y by lia.
    replace ((y + h) * (2 * b + 1) + c) with (y * (2 * b + 1) + c + (2 * h * b + h)) in D by ring.
    apply (N.mod_unique _ _ p); [lia|]. apply (N.add_cancel_r _ _ (2 * h * b + h)). rewrite D. ring.
Qed.

(** ** The generators *)
Lemma next_flip32 add mult s : N.odd mult = true -> s < 2 ^ 32 ->
  lcrng32_next add mult (flip_top 32 s) = flip_top 32 (lcrng32_next add mult s).
Proof. intros H L. exact (step_flip 31 mult add s H L). Qed.
Lemma next_flip64 add mult s : N.odd mult = true -> s < 2 ^ 64 ->
  lcrng64_next add mult (flip_top 64 s) = flip_top 64 (lcrng64_next add mult s).
Proof. intros H L. exact (step_flip 63 mult add s H L). Qed.
Lemma high_flip32 x : x < 4294967296 -> w16 (N.shiftr (w32 (flip_top 32 x)) 16) = flip_top 16 (w16 (N.shiftr (w32 x) 16)).
Proof.
  intros H. unfold flip_top. rewrite !w32_small; [|exact H|apply (lxor_lt x _ 32); [exact H|reflexivity]].
  assert (S : N.shiftr x 16 < 65536) by (rewrite N.shiftr_div_pow2; apply N.div_lt_upper_bound; [discriminate|exact H]).
  rewrite N.shiftr_lxor. change (N.shiftr (2 ^ (32 - 1)) 16) with (2 ^ (16 - 1)).
  rewrite !w16_small; [reflexivity|exact S|apply (lxor_lt _ _ 16); [exact S|reflexivity]].
Qed.
Lemma high_flip64 x : x < 18446744073709551616 -> w32 (N.shiftr (w64 (flip_top 64 x)) 32) = flip_top 32 (w32 (N.shiftr (w64 x) 32)).
Proof.
  intros H. unfold flip_top. rewrite !w64_small; [|exact H|apply (lxor_lt x _ 64); [exact H|reflexivity]].
  assert (S : N.shiftr x 32 < 4294967296) by (rewrite N.shiftr_div_pow2; apply N.div_lt_upper_bound; [discriminate|exact H]).
  rewrite N.shiftr_lxor. change (N.shiftr (2 ^ (64 - 1)) 32) with (2 ^ (32 - 1)).
  rewrite !w32_small; [reflexivity|exact S|apply (lxor_lt _ _ 32); [exact S|reflexivity]].
Qed.
Lemma outputs_flip32 add mult n : N.odd mult = true -> forall s, s < 2 ^ 32 ->
  results (lcrng32_next_u16 add mult) n (flip_top 32 s) = map (flip_top 16) (results (lcrng32_next_u16 add mult) n s).
Proof.
  intros H. induction n as [|n IH]; intros s L; [reflexivity|]. cbn [results]. unfold lcrng32_next_u16 at 1 3. cbv zeta.
  rewrite next_flip32 by assumption. cbn [map]. rewrite IH by apply w32_lt. rewrite high_flip32 by apply w32_lt. reflexivity.
Qed.
Lemma outputs_flip64 add mult n : N.odd mult = true -> forall s, s < 2 ^ 64 ->
  results (lcrng64_next_u32 add mult) n (flip_top 64 s) = map (flip_top 32) (results (lcrng64_next_u32 add mult) n s).
Proof.
  intros H. induction n as [|n IH]; intros s L; [reflexivity|]. cbn [results]. unfold lcrng64_next_u32 at 1 3. cbv zeta.
  rewrite next_flip64 by assumption. cbn [map]. rewrite IH by apply w64_lt. rewrite high_flip64 by apply w64_lt. reflexivity.
Qed.
Lemma odd_published32 minor p add mult : In p published32 -> consts_of32 minor p = Ok (add, mult) -> N.odd mult = true.
Proof.
  intros Hp Hc. unfold published32 in Hp. cbn [In] in Hp. unfold consts_of32 in Hc.
  repeat (destruct Hp as [<-|Hp]; [cbn [p32_add p32_mult p32_rev PokeRNGMod PokeRNGDiv PokeRNGRMod PokeRNGRDiv ARNG ARNGR XDRNG XDRNGR] in Hc|]).
  1-2,5,7: vm_compute in Hc; injection Hc as <- <-; reflexivity.
  1-2: rewrite consts32_poke_r in Hc; injection Hc as <- <-; reflexivity.
  - rewrite consts32_arng_r in Hc. injection Hc as <- <-. reflexivity.
  - rewrite consts32_xd_r in Hc. injection Hc as <- <-. reflexivity.
  - destruct Hp.
Qed.
Lemma odd_published64 minor p add mult : In p published64 -> consts_of64 minor p = Ok (add, mult) -> N.odd mult = true.
Proof.
  intros Hp Hc. unfold published64 in Hp. cbn [In] in Hp. unfold consts_of64 in Hc.
  repeat (destruct Hp as [<-|Hp]; [cbn [p64_add p64_mult p64_rev BWRNG BWRNGR] in Hc|]).
  - vm_compute in Hc. injection Hc as <- <-. reflexivity.
  - rewrite consts64_bw_r in Hc. injection Hc as <- <-. reflexivity.
  - destruct Hp.
Qed.
Lemma published_flip32 minor p add mult s : In p published32 -> consts_of32 minor p = Ok (add, mult) -> s < 2 ^ 32 ->
  forall n, results (lcrng32_next_u16 add mult) n (flip_top 32 s) = map (flip_top 16) (results (lcrng32_next_u16 add mult) n s).
Proof. intros Hp Hc L n. apply outputs_flip32; [exact (odd_published32 minor p add mult Hp Hc)|exact L]. Qed.
Lemma published_flip64 minor p add mult s : In p published64 -> consts_of64 minor p = Ok (add, mult) -> s < 2 ^ 64 ->
  forall n, results (lcrng64_next_u32 add mult) n (flip_top 64 s) = map (flip_top 32) (results (lcrng64_next_u32 add mult) n s).
Proof. intros Hp Hc L n. apply outputs_flip64; [exact (odd_published64 minor p add mult Hp Hc)|exact L]. Qed.

(** ** Generation 3 *)
Lemma steps_flip k s : s < 2 ^ 32 -> steps k (flip_top 32 s) = flip_top 32 (steps k s).
Proof.
  intros L. induction k as [|k IH] using N.peano_ind; [reflexivity|]. rewrite <- N.add_1_r, !next_state, IH.
  pose proof (steps_lt k s L) as B. pose proof (step_flip 31 0x41C64E6D 0x6073 (steps k s) eq_refl B) as F.
  rewrite !(N.mul_comm _ 0x41C64E6D) in F. exact F.
Qed.
Lemma rand_flip s k : s < 2 ^ 32 -> rand_at (flip_top 32 s) k = flip_top 16 (rand_at s k).
Proof.
  intros L. rewrite !rand_state, steps_flip by exact L. unfold flip_top. change 65536 with (2 ^ 16). rewrite <- !N.shiftr_div_pow2, N.shiftr_lxor. reflexivity.
Qed.
Lemma flip16_mod r m : r < 65536 -> N.divide m 32768 -> flip_top 16 r mod m = r mod m.
Proof.
  intros L [d E]. assert (M0 : m <> 0) by (intros ->; lia).
  destruct (flip_cases 15 r L) as [[_ H]|[G H]]; change (N.lxor r (2 ^ 15)) with (flip_top 16 r) in H; rewrite H; change (2 ^ 15) with 32768 in *.
  - rewrite E, N.mod_add by exact M0. reflexivity.
  - rewrite <- (N.mod_add (r - 32768) d m M0), <- E. f_equal. lia.
Qed.
Lemma lor_pid lo hi : lo < 65536 -> lo + 65536 * hi = N.lor lo (N.shiftl hi 16).
Proof.
  intros L. rewrite <- N.lxor_lor, <- N.add_nocarry_lxor, N.shiftl_mul_pow2; [change (2 ^ 16) with 65536; lia| |].
  all: apply N.bits_inj_0; intros n; rewrite N.land_spec; destruct (N.lt_ge_cases n 16) as [G|G];
    [rewrite N.shiftl_spec_low by exact G; apply andb_false_r|now rewrite (bits_above_lt lo 16 n L G)].
Qed.
Lemma halves_flip lo hi : lo < 65536 -> flip_top 16 lo + 65536 * flip_top 16 hi = N.lxor (lo + 65536 * hi) 0x80008000.
Proof.
  intros A. assert (A' : flip_top 16 lo < 65536) by (apply (lxor_lt _ _ 16); [exact A|reflexivity]).
  rewrite !lor_pid by assumption. rewrite <- !N.lxor_lor.
  - unfold flip_top. rewrite N.shiftl_lxor. change (N.shiftl (2 ^ (16 - 1)) 16) with 0x80000000. change (2 ^ (16 - 1)) with 0x8000.
    change 0x80008000 with (N.lxor 0x8000 0x80000000).
    generalize (N.shiftl hi 16). intros v. apply N.bits_inj. intros n. rewrite !N.lxor_spec.
    destruct (N.testbit lo n), (N.testbit v n), (N.testbit 0x8000 n), (N.testbit 0x80000000 n); reflexivity.
  - apply N.bits_inj_0. intros n. rewrite N.land_spec. destruct (N.lt_ge_cases n 16) as [G|G];
    [rewrite N.shiftl_spec_low by exact G; apply andb_false_r|now rewrite (bits_above_lt _ 16 n A G)].
  - apply N.bits_inj_0. intros n. rewrite N.land_spec. destruct (N.lt_ge_cases n 16) as [G|G];
    [rewrite N.shiftl_spec_low by exact G; apply andb_false_r|now rewrite (bits_above_lt _ 16 n A' G)].
Qed.
Lemma pid_flip s : s < 2 ^ 32 -> first_pid (flip_top 32 s) = N.lxor (first_pid s) 0x80008000.
Proof. intros L. unfold first_pid. rewrite !rand_flip by exact L. apply halves_flip. exact (rand_at_lt s 1 L). Qed.

(** What a PID shows that does not depend on bits 15 and 31, and the nature, which always does. *)
Lemma land_flip pid m : N.land m 0x80008000 = 0 -> N.land (N.lxor pid 0x80008000) m = N.land pid m.
Proof.
  intros H. apply N.bits_inj. intros n. apply (f_equal (fun z => N.testbit z n)) in H. rewrite N.land_spec, N.bits_0 in H.
  rewrite !N.land_spec, N.lxor_spec. destruct (N.testbit m n), (N.testbit 0x80008000 n), (N.testbit pid n); try reflexivity; discriminate H.
Qed.
Lemma psv_flip pid : N.lxor (N.shiftr (N.lxor pid 0x80008000) 16) (N.land (N.lxor pid 0x80008000) 0xFFFF) =
  N.lxor (N.shiftr pid 16) (N.land pid 0xFFFF).
Proof.
  assert (E : N.land (N.lxor pid 0x80008000) 0xFFFF = N.lxor (N.land pid 0xFFFF) 0x8000).
  { apply N.bits_inj. intros n. change 0x8000 with (N.land 0x80008000 0xFFFF). rewrite !N.land_spec, !N.lxor_spec, !N.land_spec.
    destruct (N.testbit pid n), (N.testbit 0xFFFF n), (N.testbit 0x80008000 n); reflexivity. }
  rewrite E, N.shiftr_lxor. change (N.shiftr 0x80008000 16) with 0x8000.
  apply N.bits_inj. intros n. rewrite !N.lxor_spec.
  destruct (N.testbit (N.shiftr pid 16) n), (N.testbit (N.land pid 0xFFFF) n), (N.testbit 0x8000 n); reflexivity.
Qed.
Lemma shiny_flip pid tsv : get_shiny (N.lxor pid 0x80008000) tsv = get_shiny pid tsv.
Proof. unfold get_shiny. cbv zeta. rewrite psv_flip. reflexivity. Qed.
Lemma gender_flip pid ratio : get_gender (N.lxor pid 0x80008000) ratio = get_gender pid ratio.
Proof. unfold get_gender. rewrite land_flip by reflexivity. reflexivity. Qed.
Lemma unown_flip pid form : unown_check (N.lxor pid 0x80008000) form = unown_check pid form.
Proof. unfold unown_check. cbv zeta. rewrite !land_flip by reflexivity. reflexivity. Qed.
Lemma ability_flip pid : N.lxor pid 0x80008000 mod 2 = pid mod 2.
Proof. change 2 with (2 ^ 1). rewrite <- !N.land_ones. apply land_flip. reflexivity. Qed.
Lemma nature_flip pid : pid < 2 ^ 32 -> N.lxor pid 0x80008000 mod 25 <> pid mod 25.
Proof.
  intros L E. assert (Z : 65536 <> 0) by discriminate. pose proof (N.div_mod pid 65536 Z) as D.
  pose proof (N.mod_lt pid 65536 Z) as A. assert (B : pid / 65536 < 65536) by (apply N.div_lt_upper_bound; [discriminate|exact L]).
  set (lo := pid mod 65536) in *. set (hi := pid / 65536) in *. clearbody lo hi. rewrite N.add_comm in D. subst pid. clear L Z.
  rewrite <- halves_flip in E by exact A.
  assert (F : 25 <> 0) by discriminate.
  pose proof (N.div_mod (flip_top 16 lo + 65536 * flip_top 16 hi) 25 F) as P. pose proof (N.div_mod (lo + 65536 * hi) 25 F) as Q.
  rewrite E in P. revert P Q. generalize ((flip_top 16 lo + 65536 * flip_top 16 hi) / 25) ((lo + 65536 * hi) / 25) ((lo + 65536 * hi) mod 25).
  intros x y r P Q. clear E F.
  destruct (flip_cases 15 lo A) as [[_ H]|[G H]]; change (N.lxor lo (2 ^ 15)) with (flip_top 16 lo) in H; rewrite H in P; clear H;
  destruct (flip_cases 15 hi B) as [[_ K]|[G' K]]; change (N.lxor hi (2 ^ 15)) with (flip_top 16 hi) in K; rewrite K in P; clear K;
  change (2 ^ 15) with 32768 in *; lia.
Qed.

Lemma traits_flip s : s < 2 ^ 32 ->
  let p := first_pid s in let p' := first_pid (flip_top 32 s) in
  p' = N.lxor p 0x80008000 /\
  (forall tsv, get_shiny p' tsv = get_shiny p tsv) /\ (forall ratio, get_gender p' ratio = get_gender p ratio) /\
  (forall form, unown_check p' form = unown_check p form) /\ p' mod 2 = p mod 2 /\ p' mod 25 <> p mod 25.
Proof.
  intros L p p'. subst p p'. rewrite pid_flip by exact L. split; [reflexivity|]. split; [intros; apply shiny_flip|].
  split; [intros; apply gender_flip|]. split; [intros; apply unown_flip|]. split; [apply ability_flip|]. apply nature_flip.
  unfold first_pid. pose proof (rand_at_lt s 1 L). pose proof (rand_at_lt s 2 L). change (2 ^ 32) with 4294967296. lia.
Qed.
Lemma mod32_flip r : r < 65536 -> flip_top 16 r mod 32768 = r mod 32768.
Proof. intros H. apply flip16_mod; [exact H|]. exists 1. reflexivity. Qed.
Lemma iv_flip r : r < 65536 -> [flip_top 16 r mod 32; flip_top 16 r / 32 mod 32; flip_top 16 r / 1024 mod 32] = [r mod 32; r / 32 mod 32; r / 1024 mod 32].
Proof.
  intros H. pose proof (mod32_flip r H) as E.
  assert (G : forall v, v mod 32 = v mod 32768 mod 32 /\ v / 32 mod 32 = v mod 32768 / 32 mod 32 /\ v / 1024 mod 32 = v mod 32768 / 1024 mod 32).
  { intros v. clear. set (w := v mod 32768). assert (Z : 32768 <> 0) by discriminate. pose proof (N.div_mod v 32768 Z) as D. pose proof (N.mod_lt v 32768 Z) as B.
    fold w in D, B. clearbody w. rewrite D. generalize (v / 32768). intros q. clear D Z.
    replace (32768 * q + w) with (w + (q * 1024) * 32) at 1 by ring. rewrite N.mod_add by discriminate. split; [reflexivity|].
    replace (32768 * q + w) with (w + (q * 1024) * 32) at 1 by ring. rewrite N.div_add by discriminate.
    replace (q * 1024) with (q * 32 * 32) at 1 by ring. rewrite N.mod_add by discriminate. split; [reflexivity|].
    replace (32768 * q + w) with (w + (q * 32) * 1024) at 1 by ring. rewrite N.div_add by discriminate.
    rewrite N.mod_add by discriminate. reflexivity. }
  destruct (G (flip_top 16 r)) as (-> & -> & ->). destruct (G r) as (-> & -> & ->). rewrite E. reflexivity.
Qed.
Lemma pid_and_ivs_flip k s : s < 2 ^ 32 ->
  pid_and_ivs k (flip_top 32 s) = (N.lxor (fst (pid_and_ivs k s)) 0x80008000, snd (pid_and_ivs k s)).
Proof.
  intros L. unfold pid_and_ivs. cbn [fst snd]. f_equal; [exact (pid_flip s L)|]. rewrite rand_flip by exact L.
  apply iv_flip. exact (rand_at_lt s k L).
Qed.
Lemma ivs_flip s j k : s < 2 ^ 32 -> ivs_from (rand_at (flip_top 32 s) j) (rand_at (flip_top 32 s) k) = ivs_from (rand_at s j) (rand_at s k).
Proof.
  intros L. rewrite !rand_flip by exact L. apply ivs_words. split; apply mod32_flip; apply rand_at_lt; exact L.
Qed.

Lemma advance_flip32 minor p add mult s n : In p published32 -> consts_of32 minor p = Ok (add, mult) -> s < 2 ^ 32 ->
  lcrng32_advance add mult (flip_top 32 s) n = flip_top 32 (lcrng32_advance add mult s n).
Proof.
  intros Hp Hc L. pose proof (odd_published32 minor p add mult Hp Hc) as O. unfold lcrng32_advance. generalize (w32 n). clear n. intros n.
  enough (G : N.iter n (lcrng32_next add mult) s < 2 ^ 32 /\
    N.iter n (lcrng32_next add mult) (flip_top 32 s) = flip_top 32 (N.iter n (lcrng32_next add mult) s)) by apply G.
  induction n as [|n [IH1 IH2]] using N.peano_ind; [split; [exact L|reflexivity]|].
  rewrite !N.iter_succ, IH2. split; [apply w32_lt|]. apply next_flip32; assumption.
Qed.
Lemma rand_mod_flip m minor p add mult s maximum : In p published32 -> consts_of32 minor p = Ok (add, mult) -> s < 2 ^ 32 ->
  N.divide maximum 32768 ->
  snd (lcrng32_next_rand m D32_MODULO add mult (flip_top 32 s) maximum) = snd (lcrng32_next_rand m D32_MODULO add mult s maximum).
Proof.
  intros Hp Hc L D. pose proof (odd_published32 minor p add mult Hp Hc) as O. unfold lcrng32_next_rand, lcrng32_next_u16. cbn [snd].
  rewrite next_flip32, high_flip32 by (assumption || apply w32_lt).
  set (r := w16 (N.shiftr (w32 (lcrng32_next add mult s)) 16)). assert (R : r < 65536) by apply w16_lt. clearbody r.
  assert (Mx : maximum <= 32768) by (apply N.divide_pos_le; [reflexivity|exact D]).
  assert (R' : flip_top 16 r < 65536) by (apply (lxor_lt _ _ 16); [exact R|reflexivity]).
  rewrite (w16_small maximum) by lia. rewrite (w16_small r), (w16_small (flip_top 16 r)) by assumption.
  unfold umod. rewrite flip16_mod by assumption. reflexivity.
Qed.
Lemma state_sisters fuel junk g seed delay initial max area l :
  length junk = 6%nat -> setting_ok g area -> seed < 2^32 -> initial + delay < 2^32 -> initial + max <= 2^32 ->
  wild_generate fuel junk g seed delay initial max area = Ok l -> forall st, In st l ->
  let j := if w_method g =? Method_METHOD_2 then 4 else 3 in
  let k := j + (if w_method g =? Method_METHOD_4 then 2 else 1) in
  exists s, s < 2^32 /\
    first_pid s = g_pid st /\ ivs_from (rand_at s j) (rand_at s k) = g_ivs st /\
    first_pid (flip_top 32 s) = N.lxor (g_pid st) 0x80008000 /\
    ivs_from (rand_at (flip_top 32 s) j) (rand_at (flip_top 32 s) k) = g_ivs st /\
    N.lxor (g_pid st) 0x80008000 mod 25 <> g_nature st.
Proof.
  intros Hj Hset Hs Hd Hm H st Hin j k. apply In_nth_error in Hin. destruct Hin as [n Hn]. rewrite <- (Nat2N.id n) in Hn.
  destruct (generate_states _ _ _ _ _ _ _ _ _ Hj Hset Hs Hd Hm H (N.of_nat n) st Hn) as [mods [d [_ [Hdr [Hst _]]]]].
  destruct Hst as [_ [Ep [_ [_ [_ [Ei [_ [En _]]]]]]]].
  destruct Hdr as [_ [p1 [p2 [p3 [p4 [_ [_ [_ [_ [_ [_ [_ [Dp [_ Di]]]]]]]]]]]]]].
  set (p := d_first d + 2 * d_tries d) in *. set (i := N.of_nat n) in *.
  assert (T : steps (initial + i + delay + p) seed < 2 ^ 32) by exact (steps_lt _ _ Hs).
  assert (R : forall j, rand_at (steps (initial + i + delay + p) seed) j
                 = rand_at (lcg_steps 32 0x41C64E6D 0x6073 (initial + i + delay) seed) (p + j)).
  { intros m. fold (steps (initial + i + delay) seed). rewrite !rand_at_steps. f_equal. lia. }
  set (t := steps (initial + i + delay + p) seed) in *. clearbody t.
  assert (P1 : first_pid t = g_pid st) by (unfold first_pid; rewrite Ep, Dp, !R; reflexivity).
  assert (I1 : ivs_from (rand_at t j) (rand_at t k) = g_ivs st).
  { rewrite Ei, Di, !R. unfold iv2_pos, iv1_pos, j, k. unfold j.
    assert (K1 : p + (if w_method g =? Method_METHOD_2 then 4 else 3) = p + 2 + (if w_method g =? Method_METHOD_2 then 2 else 1))
      by (destruct (w_method g =? Method_METHOD_2); lia).
    assert (K2 : p + ((if w_method g =? Method_METHOD_2 then 4 else 3) + (if w_method g =? Method_METHOD_4 then 2 else 1)) =
       p + 2 + (if w_method g =? Method_METHOD_2 then 2 else 1) + (if w_method g =? Method_METHOD_4 then 2 else 1))
      by (destruct (w_method g =? Method_METHOD_2); lia).
    rewrite K1, K2. reflexivity. }
  exists t. split; [exact T|]. split; [exact P1|]. split; [exact I1|].
  split; [rewrite pid_flip by exact T; now rewrite P1|]. split; [rewrite ivs_flip by exact T; exact I1|].
  rewrite En, <- Ep. apply nature_flip. rewrite <- P1. unfold first_pid.
  pose proof (rand_at_lt t 1 T). pose proof (rand_at_lt t 2 T). change (2 ^ 32) with 4294967296. lia.
Qed.
