(** C104: nothing depends on what np.empty leaves in memory. *)
From Coq Require Import NArith ZArith List.
From Verif Require Import Base.Word Model.MT Model.SFMT Model.TinyMT Model.Xorshift Model.Xoroshiro Model.RNGList Model.Util Model.SHA1 Model.SHA1Class
  Model.Gen3State Model.Gen3Area Model.Gen3Wild Spec.Gen3Spec Spec.TableSpec Spec.MemorySpec Proofs.MemoryProofs.
Import ListNotations.
Open Scope list_scope.
Open Scope N_scope.

(** [junk] and [junk'] are two contents of the same uninitialised array. *)
Theorem C104_generators : forall m junk junk' seed seed1 seed2 seed3,
  (length junk = 624%nat -> length junk' = 624%nat ->
    mt_new junk seed = mt_new junk' seed /\ sfmt_new junk seed = sfmt_new junk' seed) /\
  (length junk = 4%nat -> length junk' = 4%nat ->
    tiny_new m junk seed = tiny_new m junk' seed /\
    xs_new junk seed seed1 seed2 seed3 = xs_new junk' seed seed1 seed2 seed3) /\
  (length junk = 2%nat -> length junk' = 2%nat ->
    xo_new junk seed seed1 = xo_new junk' seed seed1 /\ sm_new junk seed = sm_new junk' seed).
Proof.
  intros. split; [|split]; intros L L'; split.
  - exact (mt_memory _ _ _ L L').
  - exact (sfmt_memory _ _ _ L L').
  - exact (tiny_memory _ _ _ _ L L').
  - exact (xs_memory _ _ _ _ _ _ L L').
  - exact (xo_memory _ _ _ _ L L').
  - exact (sm_memory _ _ _ L L').
Qed.
Print Assumptions C104_generators.
Theorem C104_rng_list : forall S cast (nxt : S -> S * N) size rng junk junk',
  N.of_nat (length junk) = size -> N.of_nat (length junk') = size ->
  rl_new cast nxt size junk rng = rl_new cast nxt size junk' rng.
Proof. exact @rl_memory. Qed.
Print Assumptions C104_rng_list.
Theorem C104_slot_table : forall junk junk' ranges, length junk = 100%nat -> length junk' = 100%nat ->
  (increasing_to_100 0 ranges -> compute_table junk ranges false = compute_table junk' ranges false) /\
  (decreasing_to_minus_1 99 ranges -> compute_table junk ranges true = compute_table junk' ranges true).
Proof. exact table_memory. Qed.
Print Assumptions C104_slot_table.
Theorem C104_state : forall m junk junk' advance pid species form ivs ability level shiny info,
  length junk = 6%nat -> length junk' = 6%nat ->
  gstate_new m junk advance pid species form ivs ability level shiny info =
  gstate_new m junk' advance pid species form ivs ability level shiny info.
Proof. exact gstate_memory. Qed.
Print Assumptions C104_state.
Theorem C104_generate : forall fuel junk junk' g seed delay initial_advances max_advances area,
  length junk = 6%nat -> length junk' = 6%nat ->
  wild_generate fuel junk g seed delay initial_advances max_advances area =
  wild_generate fuel junk' g seed delay initial_advances max_advances area.
Proof. exact wild_memory. Qed.
Print Assumptions C104_generate.

(** SHA1: the seed is determined once set_timer0 and set_date were called before
    precompute, and set_time and set_button before hash_seed. *)
Theorem C104_sha1 : forall junk junk' version language ds_type mac soft_reset v_frame gx_state before after,
  length junk = 80%nat -> length junk' = 80%nat ->
  In 5%nat (map word before) -> In 8%nat (map word before) ->
  In 9%nat (map word (before ++ after)) -> In 12%nat (map word (before ++ after)) ->
  seed_after (sha1_new junk version language ds_type mac soft_reset v_frame gx_state) before after =
  seed_after (sha1_new junk' version language ds_type mac soft_reset v_frame gx_state) before after.
Proof. exact sha1_memory. Qed.
Print Assumptions C104_sha1.
(** Each of them is needed: the word of a setter that was not called is what the memory
    held ... *)
Theorem C104_sha1_unset : forall junk version language ds_type mac soft_reset v_frame gx_state l self i,
  set_all (sha1_new junk version language ds_type mac soft_reset v_frame gx_state) l = Ok self ->
  In i words -> ~ In i (map word l) -> nth i (sha_data self) 0 = nth i junk 0.
Proof. exact sha1_unset. Qed.
Print Assumptions C104_sha1_unset.
(** ... and without any one of them the seed can differ. *)
Definition four : list setting := [Timer 0xC7A 0x60; Date 2011 5 6 5; Time 13 14 15; Button 0x2FF].
Definition without (i : nat) : list setting := filter (fun s => negb (Nat.eqb (word s) i)) four.
Definition fresh (v : N) : sha1 := sha1_new (repeat v 80) G_BLACK L_ENGLISH DS_DS 0x9BF123456 false 6 6.
Example C104_sha1_needed :
  Forall (fun i => seed_after (fresh 0) (without i) [] <> seed_after (fresh 1) (without i) []) words.
Proof. repeat constructor; vm_compute; discriminate. Qed.
Example C104_case :
  (exists seed, seed_after (fresh 0) (firstn 2 four) (skipn 2 four) = Ok seed) /\
  Forall (fun i => exists seed, seed_after (fresh 0) (without i) [] = Ok seed) words /\
  increasing_to_100 0 [20; 40; 100]%Z /\ decreasing_to_minus_1 99 [79; 59; -1]%Z.
Proof.
  split; [eexists; vm_compute; reflexivity|]. split; [repeat constructor; eexists; vm_compute; reflexivity|].
  split; cbn; repeat constructor.
Qed.
