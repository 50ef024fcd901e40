(** Property C109. *)
From Coq Require Import NArith List.
From Verif Require Import Base.Word Model.Gen3State Model.Gen3Area Model.Gen3Wild Model.Gen3Update Model.Heap3.
From Verif Require Import Spec.HeapSpec Proofs.HeapProofs Properties.P_Gen3.
Import ListNotations.
Open Scope N_scope.

(** C109. With arrays as objects, [generate] returns states that read as the values of
    all other properties: no later state overwrites an earlier one. All their arrays are
    new and different from each other, and every array that existed before keeps its
    content. [junk] is what uninitialised arrays hold. *)
Theorem C109_own_arrays : forall fuel junk junk0 rest g seed delay initial advances area h h' objs,
  (forall r, length (junk r) = 6%nat) -> length junk0 = 6%nat ->
  wild_generate_h fuel junk rest g seed delay initial advances area h = Ok (h', objs) ->
  wild_generate fuel junk0 g seed delay initial advances area = Ok (map (view h') objs) /\
  separate h' objs /\ (forall r, In r (flat_map refs objs) -> (length h <= r)%nat) /\ firstn (length h) h' = h.
Proof. exact generate_own. Qed.
Print Assumptions C109_own_arrays.

(** Whatever the caller then does to the states (assign entries of arrays or other
    attributes, call [update_stats]) has the effect that it has on values which share
    nothing: each action changes the state it is made on, and no other. *)
Theorem C109_changes_stay_apart : forall fuel junk junk0 rest g seed delay initial advances area h m l,
  (forall r, length (junk r) = 6%nat) -> length junk0 = 6%nat -> Forall spares_arrays l ->
  stands_for (rbind (wild_generate_h fuel junk rest g seed delay initial advances area h) (fun s => acts_h m s l))
             (rbind (wild_generate fuel junk0 g seed delay initial advances area) (fun sts => acts_v m sts l)).
Proof. exact generate_then. Qed.
Print Assumptions C109_changes_stay_apart.

(** The same for any states with arrays of their own, and also without [generate]. *)
Theorem C109_separate_states : forall m l h objs, separate h objs -> Forall spares_arrays l ->
  stands_for (acts_h m (h, objs) l) (acts_v m (map (view h) objs) l).
Proof. exact acts_ok. Qed.
Print Assumptions C109_separate_states.

(** A state that the caller constructs has arrays of its own as well: it copies the IVs
    that it is given, so that later writes to them (or to any older array) do not show. *)
Theorem C109_constructor_copies : forall m junk rest h advance pid species form ivs ability level shiny info h' o,
  (forall r, length (junk r) = 6%nat) -> (ivs < length h)%nat ->
  gstate_new_h m junk rest h advance pid species form ivs ability level shiny info = Ok (h', o) ->
  (forall junk0, length junk0 = 6%nat ->
     gstate_new m junk0 advance pid species form (load h ivs) ability level shiny info = Ok (view h' o)) /\
  separate h' [o] /\ (forall r, In r (refs o) -> (length h <= r)%nat) /\ firstn (length h) h' = h /\
  forall r i v, (r < length h)%nat -> view (store h' r i v) o = view h' o.
Proof. exact constructor_own. Qed.
Print Assumptions C109_constructor_copies.

(** Two states that did share an array would not behave so: [separate] is needed. *)
Theorem C109_shared_array_shows : exists m h objs l, Forall spares_arrays l /\ ~ separate h objs /\
  ~ stands_for (acts_h m (h, objs) l) (acts_v m (map (view h) objs) l).
Proof.
  set (st := set_arrays [] [] {| g_advance := 0; g_pid := 0; g_species := 1; g_form := 0; g_stats := []; g_ability_index := 0;
    g_ivs := []; g_ability := 0; g_characteristic := 0; g_gender := 0; g_hidden_power := 0;
    g_hidden_power_strength := AInt 0; g_level := 5; g_nature := 0; g_shiny := 0 |}).
  exists Numba, [[1; 2; 3; 4; 5; 6]; [0; 0; 0; 0; 0; 0]; [0; 0; 0; 0; 0; 0]], [mk_so 0 1 st; mk_so 0 2 st], [ASetIv 0 0 31].
  split; [constructor; [exact I|constructor]|]. split.
  - intros [D _]. cbn in D. inversion D as [|x y D1 D2]. apply D1. cbn. auto.
  - vm_compute. discriminate.
Qed.
Print Assumptions C109_shared_array_shows.

(** Three states of Emerald; the second is given IVs and a level, and updated. *)
Example C109_case :
  let g := ex_gen 3 Encounter_GRASS Game_EMERALD in
  let rest := set_arrays [] [] {| g_advance := 0; g_pid := 0; g_species := 0; g_form := 0; g_stats := []; g_ability_index := 0;
    g_ivs := []; g_ability := 0; g_characteristic := 0; g_gender := 0; g_hidden_power := 0;
    g_hidden_power_strength := AInt 0; g_level := 0; g_nature := 0; g_shiny := 0 |} in
  match wild_generate_h 2000 (fun r => repeat (N.of_nat r) 6) rest g 7 3 10 3 ex_area [[99]] with
  | Raise _ => False
  | Ok (h, objs) =>
      load h 0 = [99] /\ flat_map refs objs = [2; 3; 5; 6; 8; 9]%nat /\
      map (fun o => g_pid (view h o)) objs = [3729988828; 2546347328; 3294637337] /\
      match acts_h Numba (h, objs) [ASetIv 1 0 31; ASetStat 0 5 7; AUpdate 1 (mkPersonal3 45 49 49 45 65 65 11 3 31 65 66)] with
      | Raise _ => False
      | Ok (h', objs') =>
          map (fun o => nth 0 (g_ivs (view h' o)) 0) objs' <> map (fun o => nth 0 (g_ivs (view h o)) 0) objs /\
          nth_error (map (view h') objs') 2 = nth_error (map (view h) objs) 2
      end
  end.
Proof. vm_compute. repeat split; discriminate. Qed.
(** Setting the level is an assignment that spares the arrays. *)
Example C109_attribute_case : Forall spares_arrays [ASetIv 1 0 31; AAttr 1 (fun st =>
  {| g_advance := g_advance st; g_pid := g_pid st; g_species := g_species st; g_form := g_form st;
     g_stats := g_stats st; g_ability_index := g_ability_index st; g_ivs := g_ivs st; g_ability := g_ability st;
     g_characteristic := g_characteristic st; g_gender := g_gender st; g_hidden_power := g_hidden_power st;
     g_hidden_power_strength := g_hidden_power_strength st; g_level := 50; g_nature := g_nature st;
     g_shiny := g_shiny st |})].
Proof. constructor; [exact I|]. constructor; [|constructor]. intros ivs stats st. reflexivity. Qed.
(** A state built from the caller's array number 0, which is then changed. *)
Example C109_constructor_case :
  let rest := set_arrays [] [] {| g_advance := 0; g_pid := 0; g_species := 0; g_form := 0; g_stats := []; g_ability_index := 0;
    g_ivs := []; g_ability := 0; g_characteristic := 0; g_gender := 0; g_hidden_power := 0;
    g_hidden_power_strength := AInt 0; g_level := 0; g_nature := 0; g_shiny := 0 |} in
  match gstate_new_h Numba (fun r => repeat (N.of_nat r) 6) rest [[31; 30; 29; 28; 27; 26]] 7 0x12345678 1 0 0 0 5 0
          (mkPersonal3 45 49 49 45 65 65 11 3 31 65 66) with
  | Raise _ => False
  | Ok (h, o) => g_ivs (view (store h 0 0 1) o) = [31; 30; 29; 28; 27; 26] /\ load (store h 0 0 1) 0 = [1; 30; 29; 28; 27; 26] /\
      refs o = [1; 2]%nat
  end.
Proof. now vm_compute. Qed.
