(** What loading and choosing Legends Arceus slots mean. *)
From Coq Require Import NArith ZArith QArith List Bool.
From Verif Require Import Base.Word Model.Flatbuf Model.FbsLA Model.EncounterLA Spec.FbsLASpec.
Import ListNotations.
Open Scope Q_scope.

(** ** Slot choice *)

(** The number that a binary32 pattern of a finite number stands for, without its sign. *)
Definition bits_value (b : N) : Q :=
  let e := (b mod 2^31 / 2^23)%N in
  let m := (b mod 2^23)%N in
  if N.eqb e 0 then inject_Z (Z.of_N m) * (2 # 1) ^ (-149)
  else inject_Z (Z.of_N (m + 2^23)) * (2 # 1) ^ (Z.of_N e - 150).
(** The weight of a slot, exactly. *)
Definition weight (time weather : nat) (s : slotLA) : Q :=
  inject_Z (Z.of_N (la_base_probability s)) * bits_value (nth time (la_time s) 0%N)
  * bits_value (nth weather (la_weather s) 0%N).
Fixpoint sum (l : list Q) : Q := match l with [] => 0 | x :: l' => x + sum l' end.
Fixpoint power (x : Q) (n : nat) : Q := match n with O => 1 | S n' => x * power x n' end.
(** Multipliers that are finite and not negative: below the pattern of infinity, or -0. *)
Definition multiplier_ok (l : list N) (k : nat) : Prop :=
  (nth k l 0 < 0x7F800000 \/ nth k l 0 = 0x80000000)%N.
Definition weights_ok (time weather : nat) (l : list slotLA) : Prop :=
  Forall (fun s => (la_base_probability s < 2^32)%N /\
    multiplier_ok (la_time s) time /\ multiplier_ok (la_weather s) weather) l.
(** The relative error of one binary64 operation. *)
Definition ulp : Q := 1 # 9007199254740992.

(** ** Loading *)
Open Scope N_scope.

(** A binary32 pattern below zero: sign bit set, not -0, not a NaN. *)
Definition below_zero (b : N) : Prop := 0x80000000 < b <= 0xFF800000.
(** One multiplier, from the slot's and the species'. *)
Definition multiplier_baked (slot species x : N) : Prop :=
  (~ below_zero slot /\ x = slot) \/
  (below_zero slot /\ ~ below_zero species /\ x = species) \/
  (below_zero slot /\ below_zero species /\ x = 0x3F800000).
Definition baked (slot species l : list N) : Prop :=
  length l = length slot /\
  forall i a b x, nth_error slot i = Some a -> nth_error species i = Some b -> nth_error l i = Some x ->
    multiplier_baked a b x.
(** The level before the boost. *)
Definition base_level (override table_level : option Z) (level : Z) : Prop :=
  (exists o, override = Some o /\ (1 <= o <= 100)%Z /\ level = o) \/
  ((forall o, override = Some o -> (o < 1 \/ 100 < o)%Z) /\ table_level = Some level).
(** The boost of an alpha by its level index, from 1 to 5. The five numbers below count
    from the end of the table, so that an index 0, which an absent one is read as, is the
    largest boost. *)
Definition alpha_boost (index boost : Z) : Prop :=
  In (index, boost) [(1, 15); (2, 15); (3, 15); (4, 20); (5, 20);
                     (-4, 15); (-3, 15); (-2, 15); (-1, 20); (0, 20)]%Z.

(** Contents that fit the loaded record. *)
Definition small (bits : Z) (x : option Z) : Prop := exists z, x = Some z /\ (0 <= z < 2 ^ bits)%Z.
Definition slot_loaded (mults : multipliers) (infos : miscs) (t : etable) (s : slot8a) (x : slotLA) : Prop :=
  sl_species s = Some (Z.of_N (la_species x)) /\
  (exists g, sl_gender s = Some g /\ Z.of_N (la_gender x) = (g mod 256)%Z) /\
  defaulted (sl_form s) (Z.of_N (la_form x)) /\
  defaulted (sl_guaranteed_ivs s) (Z.of_N (la_guaranteed_ivs x)) /\
  sl_base_probability s = Some (Z.of_N (la_base_probability x)) /\
  la_is_alpha x = (if sl_is_alpha s then 1 else 0) /\
  (exists low high boost,
     base_level (sl_override_min s) (et_min_level t) low /\
     base_level (sl_override_max s) (et_max_level t) high /\
     (if sl_is_alpha s then exists i index,
        In (sl_species s, Z.of_N (la_form x), i) infos /\
        mi_alpha_level_index i = Some index /\ alpha_boost index boost
      else boost = 0%Z) /\
     Z.of_N (la_min_level x) = (low + boost)%Z /\ Z.of_N (la_max_level x) = (high + boost)%Z) /\
  exists e m, sl_eligibility s = Some e /\
    In (sl_species s, Z.of_N (la_form x), m) mults /\
    baked (el_time e) (mu_time m) (la_time x) /\ baked (el_weather e) (mu_weather m) (la_weather x).

(** What the loader needs from the files: every attribute is present and fits its field
    (the gender, which is -1 for most slots, is stored modulo 256),
    levels leave room for the boost, and the species is in both lookups, with an alpha
    index from -4 to 5 if an alpha slot uses it. *)
Definition slot_fits (mults : multipliers) (infos : miscs) (t : etable) (s : slot8a) : Prop :=
  small 16 (sl_species s) /\ sl_gender s <> None /\
  (exists ivs, defaulted (sl_guaranteed_ivs s) ivs /\ (0 <= ivs < 2 ^ 8)%Z) /\ small 32 (sl_base_probability s) /\
  (exists a b, et_min_level t = Some a /\ et_max_level t = Some b /\ (0 <= a <= 235)%Z /\ (0 <= b <= 235)%Z) /\
  exists form, defaulted (sl_form s) form /\ (0 <= form < 2 ^ 8)%Z /\
  (sl_is_alpha s = true -> exists i index,
     In (sl_species s, form, i) infos /\
     mi_alpha_level_index i = Some index /\ (-4 <= index <= 5)%Z) /\
  exists e m, sl_eligibility s = Some e /\
    In (sl_species s, form, m) mults /\
    length (el_time e) = length (mu_time m) /\ length (el_weather e) = length (mu_weather m) /\
    Forall (fun b => b < 2^32) (el_time e ++ el_weather e ++ mu_time m ++ mu_weather m).

(** The area of a table. *)
Definition area_loaded (mults : multipliers) (infos : miscs) (t : etable) (a : areaLA) : Prop :=
  et_id t = Some (Z.of_N (al_table_id a)) /\
  Forall2 (slot_loaded mults infos t) (et_slots t) (al_slots a).
Definition table_fits (mults : multipliers) (infos : miscs) (t : etable) : Prop :=
  small 64 (et_id t) /\ Forall (slot_fits mults infos t) (et_slots t).
(** The area under an id: that of the last table of the file with the id. *)
Definition area_under (mults : multipliers) (infos : miscs) (tables : list etable)
    (d : list (N * areaLA)) (id : N) : Prop :=
  let table := last_with (fun t => et_id t = Some (Z.of_N id)) tables in
  (forall a, In (id, a) d -> exists t, table t /\ area_loaded mults infos t a) /\
  (forall t, table t -> exists a, In (id, a) d).
