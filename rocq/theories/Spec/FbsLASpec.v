(** The Legends Arceus tables as FlatBuffer contents: which field of an object holds which
    attribute. *)
From Coq Require Import NArith ZArith List Bool.
From Verif Require Import Base.Word Model.Flatbuf Model.FbsLA Spec.FlatbufSpec.
Import ListNotations.
Open Scope N_scope.

(** [n] binary32 fields from number [k] on; absent ones are 0. *)
Definition floats_at (o : obj) (k n : nat) : list N :=
  map (fun i => match field_of o i with Some (FScalar _ b) => b | _ => 0 end) (seq k n).
Definition scalars (o : obj) (w : nat) (ks : list nat) : Prop := Forall (fun k => scalar_field o k w) ks.
(** A vector field whose items satisfy [P]; an absent vector is empty. *)
Definition vector_is {A} (P : obj -> A -> Prop) (o : obj) (k : nat) (l : list A) : Prop :=
  match field_of o k with
  | Some (FVec os) => Forall2 P os l
  | None => l = []
  | Some _ => False
  end.
(** A field that refers to an object. *)
Definition ref_is {A} (P : obj -> A -> Prop) (o : obj) (k : nat) (x : option A) : Prop :=
  match field_of o k with
  | Some (FRef o') => exists y, x = Some y /\ P o' y
  | None => x = None
  | Some _ => False
  end.

(** [x or 0] is [z]. *)
Definition defaulted (x : option Z) (z : Z) : Prop := x = Some z \/ x = None /\ z = 0%Z.
(** A dict as a list of its items: no key twice. *)
Definition is_dict {K V} (d : list (K * V)) : Prop := NoDup (map fst d).
(** [x] is the last element of [l] with [P]. *)
Definition last_with {A} (P : A -> Prop) (l : list A) (x : A) : Prop :=
  exists before after, l = before ++ x :: after /\ P x /\ Forall (fun y => ~ P y) after.
(** A lookup made from a list: the value of a key is the last element with that key. *)
Definition looks_up {K V} (d : list (K * V)) (key : V -> K -> Prop) (l : list V) : Prop :=
  is_dict d /\ forall k v, In (k, v) d <-> last_with (fun w => key w k) l v.

(** poke_encount.bin *)
Definition multiplier_is (o : obj) (m : multiplier) : Prop :=
  scalars o 4 (seq 0 14) /\
  m = mkMultiplier (int_value I32 None o 0) (int_value I32 (Some 0%Z) o 1)
        (floats_at o 2 4) (0x3F800000 :: floats_at o 6 8).
(** poke_misc.bin *)
Definition misc_is (o : obj) (m : misc) : Prop :=
  scalars o 4 [0; 1; 6]%nat /\
  m = mkMisc (int_value I32 None o 0) (int_value I32 (Some 0%Z) o 1) (int_value I32 (Some 0%Z) o 6).
(** ha_area.._spawner.bin *)
Definition vec3f_is (o : obj) (v : vec3f) : Prop :=
  scalars o 4 [0; 1; 2]%nat /\ v = mkVec3 (float_value None o 0) (float_value None o 1) (float_value None o 2).
Definition placement_is (o : obj) (v : option vec3f) : Prop := ref_is vec3f_is o 7 v.
Definition id_is (k : nat) (o : obj) (v : option Z) : Prop :=
  scalars o 8 [k] /\ v = int_value U64 None o k.
Definition spawner_is (o : obj) (s : spawner) : Prop :=
  scalars o 8 [0; 1]%nat /\ scalars o 4 [7; 8]%nat /\ scalars o 1 [10; 11; 12]%nat /\
  exists placement placements table tables,
    vector_is placement_is o 2 (placement :: placements) /\
    vector_is (id_is 0) o 20 (table :: tables) /\
    s = mkSpawner (int_value U64 None o 0) (int_value U64 None o 1) placement
          (int_value I32 None o 7) (int_value I32 None o 8)
          (bool_value o 10) (bool_value o 11) (bool_value o 12) table.
(** ha_area.._encounter.bin *)
Definition eligibility_is (o : obj) (e : eligibility) : Prop :=
  scalars o 4 (seq 7 12) /\ e = mkEligibility (floats_at o 7 4) (0x3F800000 :: floats_at o 11 8).
Definition oybn_is (o : obj) (alpha : bool) : Prop :=
  scalars o 1 [0; 1]%nat /\ (alpha = true <-> bool_value o 0 = Some true \/ bool_value o 1 = Some true).
Definition slot_is (o : obj) (s : slot8a) : Prop :=
  scalars o 4 [0; 2; 3; 25; 29; 30; 31]%nat /\
  exists e alpha, ref_is eligibility_is o 45 e /\ ref_is oybn_is o 46 (Some alpha) /\
    s = mkSlot8a (int_value I32 None o 0) (int_value I32 (Some 0%Z) o 2) (int_value I32 None o 3)
          (int_value I32 None o 25) (int_value I32 None o 29)
          (int_value I32 (Some 0%Z) o 30) (int_value I32 (Some 0%Z) o 31) e alpha.
Definition etable_is (o : obj) (t : etable) : Prop :=
  scalars o 8 [0]%nat /\ scalars o 4 [1; 2]%nat /\
  exists slots, vector_is slot_is o 3 slots /\
    t = mkEtable (int_value U64 None o 0) (int_value I32 None o 1) (int_value I32 None o 2) slots.
(** new_huge_outbreak_group.bin and new_huge_outbreak_group_lottery.bin *)
Definition group_is (o : obj) (g : group8a) : Prop :=
  scalars o 8 [0; 2]%nat /\
  exists waves, vector_is (id_is 7) o 1 waves /\
    g = mkGroup8a (int_value U64 None o 0) waves (int_value U64 None o 2).
Definition lottery_is (o : obj) (t : lottery) : Prop :=
  scalars o 8 [0]%nat /\
  exists common rare_1 rare_2,
    vector_is (id_is 0) o 1 common /\ vector_is (id_is 0) o 2 rare_1 /\ vector_is (id_is 0) o 3 rare_2 /\
    t = mkLottery (int_value U64 None o 0) common rare_1 rare_2 (common ++ rare_1 ++ rare_2).
