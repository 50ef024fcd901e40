(** C105: stats grow, and tell IVs. *)
From Coq Require Import NArith List Lia.
From Verif Require Import Base.Word Model.Gen3State Spec.Gen3Spec Spec.Gen3WildSpec Spec.GrowSpec Proofs.GrowProofs.
Import ListNotations.
Open Scope list_scope.
Open Scope N_scope.

(** With the same nature, no stat is lower if level, IVs and base stats are not. *)
Theorem C105_stats_grow : forall m junk advance species form ability shiny m' junk' advance' species' form' ability' shiny'
    pid pid' level level' ivs ivs' info info' st st',
  length junk = 6%nat -> length junk' = 6%nat -> pid < 2^32 -> pid' < 2^32 -> level' < 256 ->
  Forall (fun v => v < 32) ivs' -> info_ok info -> info_ok info' ->
  gstate_new m junk advance pid species form ivs ability level shiny info = Ok st ->
  gstate_new m' junk' advance' pid' species' form' ivs' ability' level' shiny' info' = Ok st' ->
  pid mod 25 = pid' mod 25 -> level <= level' -> Forall2 N.le ivs ivs' -> base_le info info' ->
  Forall2 N.le (g_stats st) (g_stats st').
Proof. exact stats_grow. Qed.
Print Assumptions C105_stats_grow.

(** At level 100 a stat tells its IV, up to one if the nature lowers the stat. *)
Theorem C105_stats_tell_ivs : forall m junk advance species form ability shiny m' junk' advance' species' form' ability' shiny'
    pid pid' ivs ivs' info st st' i,
  length junk = 6%nat -> length junk' = 6%nat -> pid < 2^32 -> pid' < 2^32 ->
  Forall (fun v => v < 32) ivs -> Forall (fun v => v < 32) ivs' -> info_ok info ->
  gstate_new m junk advance pid species form ivs ability 100 shiny info = Ok st ->
  gstate_new m' junk' advance' pid' species' form' ivs' ability' 100 shiny' info = Ok st' ->
  pid mod 25 = pid' mod 25 -> (i < 6)%nat -> nth i (g_stats st) 0 = nth i (g_stats st') 0 ->
  (~ lowered (pid mod 25) i -> nth i ivs 0 = nth i ivs' 0) /\
  (nth i ivs 0 <= nth i ivs' 0 + 1 /\ nth i ivs' 0 <= nth i ivs 0 + 1).
Proof. exact stats_tell_ivs. Qed.
Print Assumptions C105_stats_tell_ivs.

(** Nature 5 raises stat 2 and lowers stat 1. Two IVs apart, the lowered stat is another; one
    apart, it can be the same. A level lower, all stats are lower. *)
Definition grow_info : personal3 := mkPersonal3 45 49 49 45 65 65 12 3 31 65 65.
Definition grow (level : N) (ivs : list N) : res (list N) :=
  rmap g_stats (gstate_new Numba [1; 2; 3; 4; 5; 6] 0 5 1 0 ivs 0 level 0 grow_info).
Example C105_case :
  info_ok grow_info /\ lowered 5 1 /\ ~ lowered 5 2 /\
  grow 100 [31; 6; 31; 20; 0; 31] = Ok [231; 98; 147; 155; 135; 126] /\
  grow 100 [31; 7; 31; 20; 0; 31] = Ok [231; 99; 147; 155; 135; 126] /\
  grow 100 [31; 8; 31; 20; 0; 31] = Ok [231; 99; 147; 155; 135; 126] /\
  grow 99 [31; 8; 31; 20; 0; 31] = Ok [228; 98; 145; 153; 133; 124].
Proof.
  split; [unfold info_ok; cbn; lia|]. split; [split; [reflexivity|discriminate]|].
  split; [intros [H _]; discriminate H|]. repeat split; vm_compute; reflexivity.
Qed.
