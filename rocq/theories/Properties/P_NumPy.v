(** C106: NumPy 1 and NumPy 2. *)
From Coq Require Import NArith ZArith List Lia Floats.SpecFloat.
From Verif Require Import Base.Word Model.Float Model.Lcrng32 Model.Lcrng64 Model.Xorshift Model.Gen3State Model.Scalars Model.NumPy2
  Spec.Gen3Spec Spec.Gen3WildSpec Spec.NumPySpec Proofs.NumPyProofs.
Import ListNotations.
Open Scope list_scope.
Open Scope N_scope.

(** With NumPy 1, the code on tagged scalars is the code that all other theorems are about,
    whether the base stats are bytes of a table or Python ints. *)
Theorem C106_numpy1 : forall junk advance pid species form ivs ability level shiny info tag,
  length junk = 6%nat ->
  fits 32 advance /\ fits 32 pid /\ fits 16 species /\ fits 8 form /\ fits 8 ability /\ fits 8 level /\ fits 8 shiny ->
  Forall (fun x => x < 256) ivs -> info_ok info -> (forall n, tag n = UInt 8 n \/ tag n = PyInt n) ->
  gstate_np NumPy_1 tag junk advance pid species form ivs ability level shiny info =
  gstate_new NumPy junk (value advance) (value pid) (value species) (value form) ivs (value ability) (value level) (value shiny) info.
Proof. intros. apply numpy1_same; assumption. Qed.
Print Assumptions C106_numpy1.

(** Both versions build a state. They agree on all but the stats and hidden power: these are
    cut to 8 bits on the way in NumPy 2. *)
Theorem C106_state_partial : forall junk advance pid species form ivs ability level shiny info,
  length junk = 6%nat ->
  fits 32 advance /\ fits 32 pid /\ fits 16 species /\ fits 8 form /\ fits 8 ability /\ fits 8 level /\ fits 8 shiny ->
  Forall (fun x => x < 256) ivs -> info_ok info ->
  exists st1 st2,
    gstate_np NumPy_1 (UInt 8) junk advance pid species form ivs ability level shiny info = Ok st1 /\
    gstate_np NumPy_2 (UInt 8) junk advance pid species form ivs ability level shiny info = Ok st2 /\
    g_advance st2 = g_advance st1 /\ g_pid st2 = g_pid st1 /\ g_species st2 = g_species st1 /\ g_form st2 = g_form st1 /\
    g_ability_index st2 = g_ability_index st1 /\ g_ivs st2 = g_ivs st1 /\ g_ability st2 = g_ability st1 /\
    g_characteristic st2 = g_characteristic st1 /\ g_gender st2 = g_gender st1 /\ g_level st2 = g_level st1 /\
    g_nature st2 = g_nature st1 /\ g_shiny st2 = g_shiny st1 /\
    g_stats st1 = stats_of NumPy_1 (value pid mod 25) (value level) (bases info) ivs /\
    g_stats st2 = stats_of NumPy_2 (value pid mod 25) (value level) (bases info) ivs /\
    g_hidden_power st1 = iv_bits ivs 0 * 15 / 63 /\
    g_hidden_power st2 = iv_bits ivs 0 * 15 mod 256 / 63 /\
    g_hidden_power_strength st1 = AFloat (power_float (iv_bits ivs 1 * 40)) /\
    g_hidden_power_strength st2 = AFloat (power_float (iv_bits ivs 1 * 40 mod 256)).
Proof. exact both_versions. Qed.
Print Assumptions C106_state_partial.

(** So with NumPy 2 no state ever shows a stat above 7 or hit points above the level plus 12,
    or a hidden power type above 4. The hit points are right only if the product fits 8 bits. *)
Theorem C106_stats_refuted : forall junk advance pid species form ivs ability level shiny info st,
  length junk = 6%nat ->
  fits 32 advance /\ fits 32 pid /\ fits 16 species /\ fits 8 form /\ fits 8 ability /\ fits 8 level /\ fits 8 shiny ->
  Forall (fun x => x < 256) ivs -> info_ok info ->
  gstate_np NumPy_2 (UInt 8) junk advance pid species form ivs ability level shiny info = Ok st ->
  (exists hp others, g_stats st = hp :: others /\ hp <= value level + 12 /\ Forall (fun s => 4 <= s <= 7) others) /\
  g_hidden_power st <= 4 /\
  (nth 0 (g_stats st) 0 = hp_stat (pi_hp info) (nth 0 ivs 0) (value level) <->
   (2 * pi_hp info + nth 0 ivs 0) * value level < 256).
Proof. exact numpy2_low. Qed.
Print Assumptions C106_stats_refuted.

(** Base stats that are Python ints: from 128 on, NumPy 2 raises OverflowError. *)
Theorem C106_python_bases_refuted : forall junk advance pid species form ivs ability level shiny info,
  length junk = 6%nat ->
  fits 32 advance /\ fits 32 pid /\ fits 16 species /\ fits 8 form /\ fits 8 ability /\ fits 8 level /\ fits 8 shiny ->
  Forall (fun x => x < 256) ivs -> info_ok info ->
  (Forall (fun b => b < 128) (bases info) ->
   gstate_np NumPy_2 PyInt junk advance pid species form ivs ability level shiny info =
   gstate_np NumPy_2 (UInt 8) junk advance pid species form ivs ability level shiny info) /\
  (Exists (fun b => 128 <= b) (bases info) ->
   gstate_np NumPy_2 PyInt junk advance pid species form ivs ability level shiny info = Raise OverflowError).
Proof. exact python_bases. Qed.
Print Assumptions C106_python_bases_refuted.

(** A Python int that is out of range is reduced by NumPy 1 and refused by NumPy 2. *)
Theorem C106_arguments : forall tag junk advance pid species form ivs ability level shiny info,
  too_big 32 advance \/ too_big 32 pid \/ too_big 16 species \/ too_big 8 form \/ too_big 8 ability \/ too_big 8 level \/ too_big 8 shiny ->
  gstate_np NumPy_2 tag junk advance pid species form ivs ability level shiny info = Raise OverflowError.
Proof. exact too_big_raises. Qed.
Print Assumptions C106_arguments.

(** The nature modifiers do not depend on the version. *)
Theorem C106_natures : NATURE_MODIFIERS2 = NATURE_MODIFIERS.
Proof. exact natures_same. Qed.
Print Assumptions C106_natures.

(** Gender, shininess and Unown letter do not depend on the version. *)
Theorem C106_util : forall v pid ratio tsv form, pid < 2^32 -> tsv < 2^16 ->
  get_gender_of v (UInt 32 pid) (UInt 8 ratio) = Ok (get_gender pid ratio) /\
  get_shiny_of v (UInt 32 pid) (UInt 16 tsv) = Ok (get_shiny pid tsv) /\
  unown_check_of v (UInt 32 pid) (UInt 8 form) = Ok (unown_check pid form).
Proof. exact util_np. Qed.
Print Assumptions C106_util.

(** With NumPy 2, jumps take every kind of integer, also the np.uint64 that NumPy 1 refuses. *)
Theorem C106_jumps : forall add mult seed adv,
  lcrng32_jump_np2 add mult seed adv = lcrng32_jump add mult seed (value adv) /\
  lcrng64_jump_np2 add mult seed adv = lcrng64_jump add mult seed (value adv) /\
  lcrng32_const_jump_np2 add mult adv = lcrng32_const_jump add mult (value adv) /\
  lcrng64_const_jump_np2 add mult adv = lcrng64_const_jump add mult (value adv).
Proof. exact jumps2. Qed.
Print Assumptions C106_jumps.

(** [next_float_randrange] leaves the same state behind, but returns another number: from the
    state 1, 2, 3, 4 and between 3 and 12, 6754154638606336 / 2^49 with NumPy 1 and
    12580593 / 2^20 with NumPy 2. *)
Theorem C106_float_partial : forall m st minimum maximum,
  fst (xs_next_float_randrange2 m st minimum maximum) = fst (xs_next_float_randrange m st minimum maximum).
Proof. exact float_state. Qed.
Print Assumptions C106_float_partial.
Theorem C106_float_refuted :
  snd (xs_next_float_randrange NumPy [1; 2; 3; 4] (f32_of_N 3) (f32_of_N 12)) = S754_finite false 6754154638606336 (-49)%Z /\
  snd (xs_next_float_randrange2 NumPy [1; 2; 3; 4] (f32_of_N 3) (f32_of_N 12)) = S754_finite false 12580593 (-20)%Z.
Proof. exact float_differs. Qed.
Print Assumptions C106_float_refuted.

(** A level 50 state, with hit points of 120 and hidden power 15 in NumPy 1. *)
Definition np_info : personal3 := mkPersonal3 45 49 49 45 65 65 12 3 31 65 65.
Definition np_state (v : numpy) (tag : N -> scalar) (info : personal3) : res (list N * N) :=
  rmap (fun st => (g_stats st, g_hidden_power st))
    (gstate_np v tag [1; 2; 3; 4; 5; 6] (PyInt 0) (UInt 32 6) (PyInt 1) (PyInt 0) [31; 31; 31; 31; 31; 31] (PyInt 0) (UInt 8 50) (PyInt 0) info).
Example C106_case :
  info_ok np_info /\
  np_state NumPy_1 (UInt 8) np_info = Ok ([120; 69; 69; 85; 85; 65], 15) /\
  np_state NumPy_2 (UInt 8) np_info = Ok ([61; 5; 5; 6; 6; 6], 2) /\
  np_state NumPy_2 PyInt np_info = np_state NumPy_2 (UInt 8) np_info /\
  np_state NumPy_1 PyInt (mkPersonal3 255 10 10 50 75 135 0 0 254 30 32) = Ok ([330; 30; 30; 95; 155; 70], 15) /\
  np_state NumPy_2 PyInt (mkPersonal3 255 10 10 50 75 135 0 0 254 30 32) = Raise OverflowError.
Proof. split; [unfold info_ok; cbn; lia|]. repeat split; vm_compute; reflexivity. Qed.
