(** The published generator classes have the constants of the games. *)
From Coq Require Import NArith List Lia.
From Verif Require Import Base.Word Base.WordLemmas Spec.LcrngSpec Model.Compat Model.Lcrng32 Model.Lcrng64 Model.LcrngClasses
  Spec.ClassSpec Proofs.Lcrng32Proofs Proofs.Lcrng64Proofs Proofs.LcrngFinal.
Import ListNotations.
Ltac Zify.zify_post_hook ::= idtac.
Open Scope N_scope.

Lemma class_consts32 minor p mult add : In (p, (mult, add)) games32 -> consts_of32 minor p = Ok (add, mult).
Proof.
  intros H. unfold consts_of32, lcrng32_consts, mod_inv.
  destruct (minor <? 8); repeat (destruct H as [H|H]; [injection H as <- <- <-; vm_compute; reflexivity|]); destruct H.
Qed.
Lemma class_consts64 minor p mult add : In (p, (mult, add)) games64 -> consts_of64 minor p = Ok (add, mult).
Proof.
  intros H. unfold consts_of64, lcrng64_consts, mod_inv.
  destruct (minor <? 8); repeat (destruct H as [H|H]; [injection H as <- <- <-; vm_compute; reflexivity|]); destruct H.
Qed.
Lemma next_lcg32 a m s : lcrng32_next a m s = lcg 32 m a s.
Proof. unfold lcrng32_next, lcg, w32. now rewrite N.mul_comm. Qed.
Lemma next_lcg64 a m s : lcrng64_next a m s = lcg 64 m a s.
Proof. unfold lcrng64_next, lcg, w64. now rewrite N.mul_comm. Qed.
Lemma class_steps32 minor p mult add : In (p, (mult, add)) games32 ->
  exists a m, consts_of32 minor p = Ok (a, m) /\ forall s, lcrng32_next a m s = lcg 32 mult add s.
Proof. intros H. exists add, mult. split; [now apply class_consts32|]. intros s. apply next_lcg32. Qed.
Lemma class_steps64 minor p mult add : In (p, (mult, add)) games64 ->
  exists a m, consts_of64 minor p = Ok (a, m) /\ forall s, lcrng64_next a m s = lcg 64 mult add s.
Proof. intros H. exists add, mult. split; [now apply class_consts64|]. intros s. apply next_lcg64. Qed.

Lemma iter_undo (M : N) (f g : N -> N) : (forall x, f x < M) -> (forall x, x < M -> g (f x) = x) ->
  forall n s, s < M -> N.iter n g (N.iter n f s) = s.
Proof.
  intros Hf H n. induction n as [|n IH] using N.peano_ind; intros s Hs; [reflexivity|].
  rewrite (N.iter_succ_r n _ g), Niter_succ, H; [now apply IH|].
  clear IH. destruct n as [|n] using N.peano_ind; [exact Hs|]. rewrite Niter_succ. apply Hf.
Qed.
Lemma reverse32 minor p q : p32_add p = p32_add q -> p32_mult p = p32_mult q -> p32_rev p = false ->
  p32_rev q = true -> N.odd (p32_mult p) = true ->
  exists a m a' m', consts_of32 minor p = Ok (a, m) /\ consts_of32 minor q = Ok (a', m') /\
  forall s n, s < 2^32 -> n < 2^32 ->
    lcrng32_advance a' m' (lcrng32_advance a m s n) n = s /\
    lcrng32_advance a m (lcrng32_advance a' m' s n) n = s.
Proof.
  intros Ea Em Rp Rq O. destruct (lcrng32_reverse_ok minor (p32_add p) (p32_mult p) O) as (fa & fm & ra & rm & E1 & E2 & H1 & H2).
  exists fa, fm, ra, rm. unfold consts_of32. rewrite <- Ea, <- Em, Rp, Rq. split; [exact E1|]. split; [exact E2|].
  intros s n Hs Hn. unfold lcrng32_advance.
  split; apply (iter_undo (2^32)); try assumption; intros; apply w32_lt.
Qed.
Lemma class_reverse32 minor p q : In (p, q) pairs32 ->
  exists a m a' m', consts_of32 minor p = Ok (a, m) /\ consts_of32 minor q = Ok (a', m') /\
  forall s n, s < 2^32 -> n < 2^32 ->
    lcrng32_advance a' m' (lcrng32_advance a m s n) n = s /\
    lcrng32_advance a m (lcrng32_advance a' m' s n) n = s.
Proof.
  intros H. apply reverse32;
    repeat (destruct H as [H|H]; [injection H as <- <-; reflexivity|]); destruct H.
Qed.
Lemma class_reverse64 minor :
  exists a m a' m', consts_of64 minor BWRNG = Ok (a, m) /\ consts_of64 minor BWRNGR = Ok (a', m') /\
  forall s n, s < 2^64 -> n < 2^64 ->
    lcrng64_advance a' m' (lcrng64_advance a m s n) n = s /\
    lcrng64_advance a m (lcrng64_advance a' m' s n) n = s.
Proof.
  destruct (lcrng64_reverse_ok minor (p64_add BWRNG) (p64_mult BWRNG) eq_refl) as (fa & fm & ra & rm & E1 & E2 & H1 & H2).
  exists fa, fm, ra, rm. split; [exact E1|]. split; [exact E2|].
  intros s n Hs Hn. unfold lcrng64_advance.
  split; apply (iter_undo (2^64)); try assumption; intros; apply w64_lt.
Qed.

Lemma class_rands32 minor mode p r : In (p, r) rands32 ->
  exists a m, consts_of32 minor p = Ok (a, m) /\
  forall s max, 2 <= max < 2^16 ->
    snd (lcrng32_next_rand mode (p32_dist p) a m s max) =
    match r with Some f => Ok (f (lcrng32_next a m s / 2^16) max) | None => Raise NotImplementedError end.
Proof.
  intros H. assert (P : In p published32).
  { repeat (destruct H as [H|H]; [injection H as <- _; simpl; tauto|]); destruct H. }
  destruct (c05_32 minor p P) as (a & m & E & _). exists a, m. split; [exact E|]. clear E P.
  assert (Md : forall s max, 2 <= max < 2^16 -> snd (lcrng32_next_rand mode D32_MODULO a m s max) = Ok (lcrng32_next a m s / 2^16 mod max)).
  { intros s max Hm. destruct (c06_modulo mode a m s max) as (v & -> & -> & _); [lia|]. cbn [snd]. now rewrite next_lcg32. }
  assert (Rd : forall s max, 2 <= max < 2^16 -> snd (lcrng32_next_rand mode D32_RECIPROCAL_DIVISION a m s max)
     = Ok (lcrng32_next a m s / 2^16 / (65535 / max + 1))).
  { intros s max Hm. destruct (c06_reciprocal mode a m s max) as (v & -> & -> & _); [lia|]. cbn [snd]. now rewrite next_lcg32. }
  intros s max Hm.
  repeat (destruct H as [H|H]; [injection H as <- <-; first [exact (Md s max Hm)|exact (Rd s max Hm)|reflexivity]|]); destruct H.
Qed.
Lemma class_rands64 minor p : In p [BWRNG; BWRNGR] ->
  exists a m, consts_of64 minor p = Ok (a, m) /\
  forall s max, 1 <= max <= 2^32 ->
    snd (lcrng64_next_rand (p64_dist p) a m s max) = Ok (lcrng64_next a m s / 2^32 * max / 2^32).
Proof.
  intros H. destruct (c05_64 minor p H) as (a & m & E & _). exists a, m. split; [exact E|]. clear E.
  intros s max Hm. assert (D : p64_dist p = D64_MULTIPLICATION_SHIFT) by (destruct H as [<-|[<-|[]]]; reflexivity).
  rewrite D. destruct (c06_mulshift a m s max Hm) as (v & -> & -> & _). cbn [snd]. now rewrite next_lcg64.
Qed.
