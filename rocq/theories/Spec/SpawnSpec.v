(** What C81 asks of the spawners and massive outbreaks of Legends Arceus. *)
From Coq Require Import NArith ZArith List Bool.
From Verif Require Import Base.Word Model.Flatbuf Model.FbsLA Model.EncounterLA Model.BundledLA Model.BundledSpawn.
Import ListNotations.
Open Scope N_scope.

(** [id] is the id of one of the encounter tables of the map. *)
Definition table_of_map (map_area : N) (id : option Z) : Prop :=
  exists d n a, encounter_information_la map_area = Ok d /\ In (n, a) d /\ id = Some (Z.of_N n).
(** [s] is one of the spawners of the map. *)
Definition spawner_of_map (map_area : N) (s : spawner) : Prop :=
  exists l by_id by_group, spawner_information_la map_area = Ok (l, by_id, by_group) /\ In s l.
(** [lo] and [g] are found under [h] in the tables of massive outbreaks. *)
Definition lottery_under (h : option Z) (lo : lottery) : Prop :=
  exists l d, NHO_LOTTERY_TABLE_LA = Ok (l, d) /\ In (h, lo) d.
Definition group_under (h : option Z) (g : group8a) : Prop :=
  exists l d, NHO_GROUP_TABLE_LA = Ok (l, d) /\ In (h, g) d.
(** Where the lottery has no group: the hash of the empty string with the offset basis of
    the games. *)
Definition no_group : option Z := Some 0xCBF29CE484222645%Z.
(** A point with three numbers. *)
Definition complete (v : vec3f) : Prop := exists x y z, v = mkVec3 (Some x) (Some y) (Some z).
(** A position, and a range of counts from 1 to 4. *)
Definition spawner_sane (s : spawner) : Prop :=
  (exists v, sp_coordinates s = Some v /\ complete v) /\
  exists lo hi, sp_min_count s = Some lo /\ sp_max_count s = Some hi /\ (1 <= lo <= hi)%Z /\ (hi <= 4)%Z.
