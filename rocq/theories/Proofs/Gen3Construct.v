(** The constructor of the wild generator, the tables and the safari zones of generation 3. *)
From Coq Require Import NArith Arith List Bool Lia.
From Verif Require Import Base.Word Model.Gen3State Model.Gen3Area Model.Gen3Wild
  Spec.Gen3Spec Spec.Gen3WildSpec.
From Verif Require Proofs.PersonalProofs.
Import ListNotations.
Open Scope N_scope.

Lemma bit game n b : b = 2^n -> negb (N.land game b =? 0) = N.testbit game n.
Proof. intros ->. apply PersonalProofs.has_bit. Qed.
Lemma rs_bits game : negb (N.land game (N.lor Game_RUBY Game_SAPPHIRE) =? 0) = N.testbit game 0 || N.testbit game 1.
Proof. exact (PersonalProofs.has_two game 0 1). Qed.

Lemma safari_spec area game : is_rse_safari_zone area game = true <-> In (a_location area) (safari_places game).
Proof.
  unfold is_rse_safari_zone, safari_places. cbv zeta. rewrite rs_bits, (bit game 2 Game_EMERALD eq_refl).
  destruct (N.testbit game 0 || N.testbit game 1); [|destruct (N.testbit game 2)].
  - rewrite existsb_exists. cbn [In]. split.
    + intros (x & Hx & E). apply N.eqb_eq in E. lia.
    + intros H. exists (a_location area). split; [cbn [In]; lia|apply N.eqb_refl].
  - rewrite existsb_exists. cbn [In]. split.
    + intros (x & Hx & E). apply N.eqb_eq in E. lia.
    + intros H. exists (a_location area). split; [cbn [In]; lia|apply N.eqb_refl].
  - cbn. split; [discriminate|tauto].
Qed.

Lemma table_spec t game : get_info_table_3 t game = records_of t game.
Proof.
  unfold get_info_table_3, records_of. now rewrite rs_bits, (bit game 2 Game_EMERALD eq_refl), (bit game 3 Game_FIRE_RED eq_refl).
Qed.

Lemma lxor_16 a b : a < 65536 -> b < 65536 -> w16 (N.lxor a b) = N.lxor a b.
Proof.
  intros Ha Hb. unfold w16. change 65536 with (2^16) at 1.
  apply N.bits_inj. intros k. destruct (N.lt_ge_cases k 16).
  - now rewrite N.mod_pow2_bits_low.
  - rewrite N.mod_pow2_bits_high, N.lxor_spec by assumption.
    rewrite <- (N.mod_small a (2^16)), <- (N.mod_small b (2^16)) by assumption.
    now rewrite !N.mod_pow2_bits_high by assumption.
Qed.

Lemma wild_new_spec t method encounter lead game tid sid :
  method < 256 -> encounter < 256 -> lead < 256 -> game < 256 -> tid < 65536 -> sid < 65536 ->
  let g := wild_new t method encounter lead game tid sid in
  w_method g = method /\ w_encounter g = encounter /\ w_game g = game /\
  w_lead g = (if N.testbit game 2 then lead else 255) /\
  w_tsv g = N.lxor tid sid /\ w_table g = records_of t game.
Proof.
  intros H1 H2 H3 H4 H5 H6. cbv zeta. unfold wild_new. cbv zeta.
  assert (W : forall x, x < 256 -> w8 x = x) by (intros; now apply N.mod_small).
  cbn [w_method w_encounter w_game w_lead w_tsv w_table].
  rewrite !W, lxor_16, table_spec, (bit game 2 Game_EMERALD eq_refl) by (assumption || reflexivity).
  repeat split.
Qed.
