(** How many PIDs can come with the same IVs, and how many IVs with the same PID. *)
From Coq Require Import NArith ZArith List Bool Lia.
From Verif Require Import Base.Word Base.WordLemmas Model.Lcrng32 Model.Gen3State Model.Gen3Area Model.Gen3Wild
  Spec.LcrngSpec Spec.RecoverSpec Spec.Gen3Spec Spec.Gen3WildSpec Spec.SpreadSpec Spec.WildRateSpec Spec.SisterSpec Spec.PlaceSpec
  Proofs.Gen3AreaProofs Proofs.Gen3Pid Proofs.LcrngRecover Proofs.Gen3Recover Proofs.Gen3Props Proofs.SpreadProofs Proofs.StreamProofs
  Proofs.PlaceProofs Proofs.PerfectProofs Proofs.ShinyProofs.
Import ListNotations.
Open Scope list_scope.
Open Scope N_scope.
Ltac Zify.zify_post_hook ::= idtac.

Lemma pick {A} (R : A -> N -> Prop) l : (forall x, In x l -> exists u, R x u) -> (forall x y u, R x u -> R y u -> x = y) -> NoDup l ->
  exists us, length us = length l /\ NoDup us /\ forall u, In u us -> exists x, In x l /\ R x u.
Proof.
  intros E F. induction l as [|x l IH]; intros D; [exists []; repeat split; [constructor|intros u []]|].
  inversion D as [|? ? Nx Dl]; subst. destruct IH as (us & L & Du & H); [intros y Hy; apply E; now right|exact Dl|].
  destruct (E x (or_introl eq_refl)) as (u & Hu). exists (u :: us). split; [cbn; now rewrite L|]. split.
  - constructor; [|exact Du]. intros I. destruct (H u I) as (y & Iy & Ry). apply Nx. now rewrite (F x y u Hu Ry).
  - intros v [<-|I]; [exists x; split; [now left|exact Hu]|]. destruct (H v I) as (y & Iy & Ry). exists y. split; [now right|exact Ry].
Qed.
Definition gap_of (g : wildgen) : N := if w_method g =? Method_METHOD_4 then 2 else 1.
Lemma met_from g t pid ivs : t < 2^32 -> met g t pid ivs -> exists u, u < 2^32 /\ pid = first_pid u /\ spread (gap_of g) (iv1_pos g 2) u = ivs.
Proof.
  intros T H. destruct (met_state _ _ _ _ T H) as (n & f & k & u & _ & _ & U & _ & P & _ & E). exists u. split; [exact U|]. split; [exact P|].
  rewrite E. reflexivity.
Qed.
Lemma two_rands s : s < 2^32 -> results (lcrng32_next_u16 0x6073 0x41C64E6D) 2 s = [rand_at s 1; rand_at s 2].
Proof.
  intros H. cbn [results]. rewrite !half_32. reflexivity.
Qed.
Section Place.
Variables (fuel : nat) (junk : list N) (g : wildgen) (area : area3) (delay initial : N).
Hypothesis Hj : length junk = 6%nat.
Hypothesis Hf : 2^31 <= N.of_nat fuel.
Hypothesis Hd : initial + delay < 2^32.
Hypothesis Hp : plain_place g area.
Lemma six_pids ivs l : NoDup l -> (forall pid, In pid l -> can_be_met fuel junk g area delay initial pid ivs) -> (length l <= 6)%nat.
Proof.
  intros D H.
  destruct (pick (fun pid u => u < 2^32 /\ pid = first_pid u /\ spread (gap_of g) (iv1_pos g 2) u = ivs) l) as (us & L & Du & K); [| |exact D|].
  - intros pid I. specialize (H pid I). apply (met_iff fuel junk g area initial delay Hj Hp Hf Hd) in H. destruct H as (t & T & H). exact (met_from g t pid ivs T H).
  - intros x y u (_ & -> & _) (_ & -> & _). reflexivity.
  - rewrite <- L. apply (six_seeds (gap_of g) (iv1_pos g 2) us ivs); [unfold gap_of; destruct (_ =? _); auto|exact Du|].
    intros u I. destruct (K u I) as (pid & _ & A & _ & B). split; assumption.
Qed.
Lemma three_ivs pid l : NoDup l -> (forall ivs, In ivs l -> can_be_met fuel junk g area delay initial pid ivs) -> (length l <= 3)%nat.
Proof.
  intros D H.
  destruct (pick (fun ivs u => u < 2^32 /\ pid = first_pid u /\ spread (gap_of g) (iv1_pos g 2) u = ivs) l) as (us & L & Du & K); [| |exact D|].
  - intros ivs I. specialize (H ivs I). apply (met_iff fuel junk g area initial delay Hj Hp Hf Hd) in H. destruct H as (t & T & H). exact (met_from g t pid ivs T H).
  - intros x y u (_ & _ & <-) (_ & _ & <-). reflexivity.
  - rewrite <- L. apply (at_most_three us [pid mod 65536; pid / 65536]); [exact Du|].
    intros u I. destruct (K u I) as (ivs & _ & A & B & _). split; [exact A|]. rewrite two_rands by exact A.
    rewrite B. unfold first_pid. pose proof (rand_lt u 1 A) as R. rewrite N.mul_comm, N.mod_add, N.div_add, (N.div_small (rand_at u 1)), N.mod_small by (exact R || discriminate).
    reflexivity.
Qed.
End Place.
