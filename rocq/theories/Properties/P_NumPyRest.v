(** C106 and C110: the shuffle of SFMT and the wild generator under NumPy 2. *)
From Coq Require Import String NArith List Bool Lia.
From Verif Require Import Base.Word Model.SFMT Model.Enums Model.Scalars Model.NumPy2 Model.Gen3State Model.Gen3Area Model.Gen3Wild
  Model.NumPy2Rest Spec.OtherSpec Proofs.NumPy2RestProofs Properties.P_Gen3.
Import ListNotations.
Open Scope list_scope.
Open Scope N_scope.

(** C106. The Python shuffle of SFMT works on uint32 in NumPy 2 and on int64 in NumPy 1, and
    leaves the same words. *)
Theorem C106_sfmt : forall state, sfmt_shuffle_py2 state = sfmt_shuffle_py state.
Proof. exact shuffle_same. Qed.
Print Assumptions C106_sfmt.
(** The first four words from a state whose words lose bits when they are shifted. *)
Example C106_sfmt_case :
  let state := map (fun i => w32 (0x9E3779B9 * N.of_nat (S i))) (seq 0 624) in
  shl32 (aget state 0) 8 <> N.shiftl (aget state 0) 8 /\
  firstn 4 (sfmt_py2_first state) = [604998151; 4237208427; 2492328331; 1859586886].
Proof. vm_compute. split; [discriminate|reflexivity]. Qed.

(** The constructor of the wild generator is that of NumPy 1 for all arguments that fit their
    fields; a lead is looked at in Emerald only. *)
Theorem C106_wild_constructor : forall v t method encounter lead game tid sid,
  (v = NumPy_2 -> method < 2^8 /\ encounter < 2^8 /\ game < 2^8 /\ (N.testbit game 2 = true -> lead < 2^8) /\ N.lxor tid sid < 2^16) ->
  wild_new_np v t (PyInt method) (PyInt encounter) (PyInt lead) (PyInt game) (PyInt tid) (PyInt sid) =
  Ok (wild_new t method encounter lead game tid sid).
Proof.
  intros [|] * H; [apply wild_np1|]. destruct (H eq_refl) as (Hm & He & Hg & Hl & Hx). apply wild_np2; assumption.
Qed.
Print Assumptions C106_wild_constructor.

(** C110. With NumPy 2 and no numba the games from Diamond on are refused. *)
Theorem C110_numpy2_partial : forall t method encounter lead game tid sid,
  outside Game games_3 game -> ~ In game [0; 32; 64] ->
  wild_new_np NumPy_2 t (PyInt method) (PyInt encounter) lead (PyInt game) tid sid = Raise OverflowError.
Proof. exact later_games_refused. Qed.
Print Assumptions C110_numpy2_partial.
Example C110_numpy2_case : outside Game games_3 512 /\ ~ In 512 [0; 32; 64] /\
  rmap w_game (wild_new_np NumPy_2 ex_tables (PyInt 1) (PyInt 0) (PyInt 255) (PyInt 64) (PyInt 12345) (PyInt 54321)) = Ok 64 /\
  rmap w_game (wild_new_np NumPy_1 ex_tables (PyInt 1) (PyInt 0) (PyInt 255) (PyInt 512) (PyInt 12345) (PyInt 54321)) = Ok 0.
Proof.
  split; [exists "PLATINUM"%string; split; [cbn; tauto|cbn; intuition discriminate]|].
  split; [cbn; intuition discriminate|]. split; vm_compute; reflexivity.
Qed.
