(** data/encounter/encounter_area_la.py and the Legends Arceus part of
    data/encounter/__init__.py: areas, slot choice and loading. *)
From Coq Require Import NArith ZArith List Bool SpecFloat.
From Verif Require Import Base.Word Model.Float Model.Flatbuf Model.FbsLA.
Import ListNotations.
Open Scope N_scope.

(** encounter_area_la.py:10-23. Multipliers are binary32 bit patterns. *)
Record slotLA := mkSlotLA {
  la_species : N; la_gender : N; la_form : N; la_min_level : N; la_max_level : N;
  la_guaranteed_ivs : N; la_base_probability : N; la_is_alpha : N;
  la_time : list N; la_weather : list N }.
(** encounter_area_la.py:32-41. *)
Record areaLA := mkAreaLA { al_table_id : N; al_slots : list slotLA }.

(** ** Floats *)

(** The binary32 value of a bit pattern. *)
Definition f32_bits (b : N) : spec_float :=
  let s := 2147483648 <=? b in
  let e := (b / 8388608) mod 256 in
  let m := b mod 8388608 in
  if e =? 255 then (if m =? 0 then S754_infinity s else S754_nan)
  else if e =? 0 then match m with N0 => S754_zero s | Npos p => S754_finite s p (-149) end
  else match m + 8388608 with N0 => S754_nan | Npos p => S754_finite s p (Z.of_N e - 150) end.
(** x < 0.0. *)
Definition is_negative (b : N) : bool := SFltb (f32_bits b) (S754_zero false).

(** ** Slot choice *)

(** encounter_area_la.py:45-49: one product. base_probability is uint32 and the multipliers are
    float32: numba multiplies them as binary64. *)
Definition probability (time weather : nat) (s : slotLA) : spec_float :=
  f64_mul (f64_mul (f64_of_N (la_base_probability s)) (f64_of_f32 (f32_bits (nth time (la_time s) 0))))
          (f64_of_f32 (f32_bits (nth weather (la_weather s) 0))).
(** np.sum, as numba compiles it: from left to right. *)
Definition total (l : list spec_float) : spec_float := fold_left f64_add l (S754_zero false).
(** encounter_area_la.py:51-54: the value of i when the loop ends. *)
Fixpoint walk (scaled_rand : spec_float) (i : nat) (l : list spec_float) : nat :=
  match l with
  | [] => i
  | [_] => i
  | p :: l' => if SFltb scaled_rand p then i else walk (f64_sub scaled_rand p) (S i) l'
  end.
(** encounter_area_la.py:43-55. [rand] is a binary32 number. Without numba self.slots is a plain
    structured array, which has no attribute base_probability. With numba, [time] and [weather]
    are not checked against the length of the arrays; both are in range for the enums. *)
Definition calc_slot (m : mode) (a : areaLA) (rand : spec_float) (time weather : nat) : res slotLA :=
  match m with
  | NumPy => Raise AttributeError
  | Numba =>
      let probabilities := map (probability time weather) (al_slots a) in
      let scaled_rand := f64_mul (f64_of_f32 rand) (total probabilities) in
      match nth_error (al_slots a) (walk scaled_rand 0 probabilities) with
      | Some s => Ok s
      | None => Raise UnboundLocalError
      end
  end.

(** ** Loading *)

(** Assignment of a Python int to an unsigned field of [bits] bits of a record. *)
Definition store (bits : Z) (x : option Z) : res N :=
  match x with Some z => Ok (Z.to_N (z mod 2 ^ bits)) | None => Raise TypeError end.
(** __init__.py:408. *)
Definition ALPHA_LEVEL_BOOSTS_LA : list Z := [15; 15; 15; 20; 20]%Z.
(** t[i] with Python's negative indices. *)
Definition tuple_get (t : list Z) (i : Z) : res Z :=
  let n := Z.of_nat (length t) in
  let j := if (i <? 0)%Z then (i + n)%Z else i in
  if ((0 <=? j) && (j <? n))%Z then Ok (nth (Z.to_nat j) t 0%Z) else Raise IndexError.
(** __init__.py:340-349: the level to store. [override] has the default 0. *)
Definition choose_level (override table_level : option Z) : option Z :=
  match override with
  | Some o => if ((0 <? o) && (o <=? 100))%Z then Some o else table_level
  | None => table_level
  end.
(** np.where(a < 0.0, b, a) on tuples of the same length. *)
Definition where_negative (a b : list N) : list N :=
  map (fun '(x, y) => if is_negative x then y else x) (combine a b).
(** __init__.py:360-373 and 374-387: both replacements. *)
Definition bake (slot species : list N) : list N :=
  let t := where_negative slot species in
  where_negative t (map (fun _ => one_f32) t).

Definition multipliers := list (species_form * multiplier).
Definition miscs := list (species_form * misc).
(** __init__.py:335-387: one slot of a table. *)
Definition load_slot (mults : multipliers) (infos : miscs) (t : etable) (s : slot8a) : res slotLA :=
  let key := (sl_species s, or_zero (sl_form s)) in
  rbind (store 16 (sl_species s)) (fun species =>
  rbind (store 8 (sl_gender s)) (fun gender =>
  rbind (store 8 (Some (or_zero (sl_form s)))) (fun form =>
  rbind (store 8 (Some (or_zero (sl_guaranteed_ivs s)))) (fun guaranteed_ivs =>
  rbind (store 8 (choose_level (sl_override_min s) (et_min_level t))) (fun min_level =>
  rbind (store 8 (choose_level (sl_override_max s) (et_max_level t))) (fun max_level =>
  rbind (store 32 (sl_base_probability s)) (fun base_probability =>
  rbind (if sl_is_alpha s then
           rbind (dict_get sf_eqb infos key) (fun i =>
           match mi_alpha_level_index i with
           | Some index => tuple_get ALPHA_LEVEL_BOOSTS_LA (index - 1)
           | None => Raise TypeError
           end)
         else Ok 0%Z) (fun boost =>
  rbind (match sl_eligibility s with Some e => Ok e | None => Raise AttributeError end) (fun e =>
  rmap (fun m => mkSlotLA species gender form
      (w8 (min_level + Z.to_N boost)) (w8 (max_level + Z.to_N boost))
      guaranteed_ivs base_probability (if sl_is_alpha s then 1 else 0)
      (bake (el_time e) (mu_time m)) (bake (el_weather e) (mu_weather m)))
    (dict_get sf_eqb mults key)))))))))).
Fixpoint load_slots (mults : multipliers) (infos : miscs) (t : etable) (l : list slot8a) : res (list slotLA) :=
  match l with
  | [] => Ok []
  | s :: l' =>
      rbind (load_slot mults infos t s) (fun x => rmap (cons x) (load_slots mults infos t l'))
  end.
(** __init__.py:329-334, 388: one area under its table id. *)
Definition load_area (mults : multipliers) (infos : miscs) (t : etable) : res areaLA :=
  rbind (store 64 (et_id t)) (fun id =>
  rmap (mkAreaLA id) (load_slots mults infos t (et_slots t))).
Fixpoint load_areas (mults : multipliers) (infos : miscs) (l : list etable) (d : list (N * areaLA)) :
    res (list (N * areaLA)) :=
  match l with
  | [] => Ok d
  | t :: l' =>
      rbind (load_area mults infos t) (fun a =>
      load_areas mults infos l' (dict_set N.eqb d (al_table_id a) a))
  end.
(** __init__.py:321-389, on the contents of the encounter file of the map. *)
Definition load_encounter_tables_la (mults : multipliers) (infos : miscs) (file : list N) :
    res (list (N * areaLA)) :=
  rbind (etable_table file) (fun '(tables, _) => load_areas mults infos tables []).
