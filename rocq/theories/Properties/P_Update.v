(** Property C108. *)
From Coq Require Import NArith List.
From Verif Require Import Base.Word Model.Gen3State Model.Gen3Update Spec.UpdateSpec Proofs.UpdateProofs.
Import ListNotations.
Open Scope N_scope.

(** C108. Whatever the state went through, [update_stats] makes the derived attributes
    those of a state constructed from the present ones, and leaves the others (the
    ability index among them) alone. *)
Theorem C108_update_is_fresh : forall m junk st info st' fresh, fields_fit st -> length junk = 6%nat ->
  update_stats m st info = Ok st' ->
  gstate_new m junk (g_advance st) (g_pid st) (g_species st) (g_form st) (g_ivs st) (g_ability st) (g_level st) (g_shiny st) info = Ok fresh ->
  same_derived st' fresh /\ same_inputs st' st.
Proof. exact update_same. Qed.
Print Assumptions C108_update_is_fresh.

(** It fails exactly when the constructor would. *)
Theorem C108_update_fails_alike : forall m junk st info e, fields_fit st -> length junk = 6%nat ->
  (update_stats m st info = Raise e <->
   gstate_new m junk (g_advance st) (g_pid st) (g_species st) (g_form st) (g_ivs st) (g_ability st) (g_level st) (g_shiny st) info = Raise e).
Proof. exact update_raises. Qed.
Print Assumptions C108_update_fails_alike.

(** Nothing that it computes depends on what it computed before; a second call changes
    nothing. *)
Theorem C108_update_forgets : forall m a b info, fields_fit a -> fields_fit b -> same_inputs a b ->
  update_stats m a info = update_stats m b info.
Proof. exact update_forgets. Qed.
Print Assumptions C108_update_forgets.
Theorem C108_update_twice : forall m st info st', fields_fit st ->
  update_stats m st info = Ok st' -> update_stats m st' info = Ok st'.
Proof. exact update_twice. Qed.
Print Assumptions C108_update_twice.

(** The constructor is this method on the attributes that it has set. *)
Theorem C108_constructor : forall m junk rest advance pid species form ivs ability level shiny info,
  gstate_new m junk advance pid species form ivs ability level shiny info =
  update_stats m (gstate_init junk rest advance pid species form ivs ability level shiny info) info.
Proof. exact init_update. Qed.
Print Assumptions C108_constructor.

(** A level 5 state with another personality value, put to level 50 with new IVs. *)
Example C108_case :
  let info := mkPersonal3 45 49 49 45 65 65 11 3 31 65 66 in
  match gstate_new Numba [1;2;3;4;5;6] 7 0x12345678 1 0 [31;30;29;28;27;26] 0 5 0 info with
  | Raise _ => False
  | Ok st0 =>
      let st := {| g_advance := g_advance st0; g_pid := 0x1A2B3C4D; g_species := g_species st0; g_form := g_form st0;
                   g_stats := g_stats st0; g_ability_index := g_ability_index st0; g_ivs := [1;31;2;31;3;31];
                   g_ability := 1; g_characteristic := g_characteristic st0; g_gender := g_gender st0;
                   g_hidden_power := g_hidden_power st0; g_hidden_power_strength := g_hidden_power_strength st0;
                   g_level := 50; g_nature := g_nature st0; g_shiny := g_shiny st0 |} in
      fields_fit st /\
      match update_stats Numba st info,
            gstate_new Numba [0;0;0;0;0;0] 7 0x1A2B3C4D 1 0 [1;31;2;31;3;31] 1 50 0 info with
      | Ok a, Ok b => same_derived a b /\ g_stats a <> g_stats st /\ g_ability_index a = 65 /\ g_ability_index b = 66
      | _, _ => False
      end
  end.
Proof. vm_compute. repeat split; auto; discriminate. Qed.
