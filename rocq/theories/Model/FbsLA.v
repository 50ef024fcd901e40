(** data/fbs/encounter_la.py: the FlatBuffer classes of Legends Arceus. Each class is a
    record of its attributes and its constructor. An attribute that can be None is an
    [option]; floats are binary32 bit patterns. *)
From Coq Require Import NArith ZArith List Bool.
From Verif Require Import Base.Word Model.Flatbuf.
Import ListNotations.
Open Scope N_scope.

(** A dict comprehension over a list, keyed by [key]: a later element replaces the value of
    an earlier one with the same key. *)
Fixpoint dict_set {K V} (eqb : K -> K -> bool) (d : list (K * V)) (k : K) (v : V) : list (K * V) :=
  match d with
  | [] => [(k, v)]
  | (k', v') :: d' => if eqb k' k then (k', v) :: d' else (k', v') :: dict_set eqb d' k v
  end.
Definition dict_by {K V} (eqb : K -> K -> bool) (key : V -> K) (l : list V) : list (K * V) :=
  fold_left (fun d v => dict_set eqb d (key v) v) l [].
Definition dict_get {K V} (eqb : K -> K -> bool) (d : list (K * V)) (k : K) : res V :=
  match find (fun kv => eqb (fst kv) k) d with Some (_, v) => Ok v | None => Raise KeyError end.

(** Keys: an attribute that may be None, and (species, form or 0). *)
Definition opt_eqb (a b : option Z) : bool :=
  match a, b with Some x, Some y => Z.eqb x y | None, None => true | _, _ => false end.
Definition species_form := (option Z * Z)%type.
Definition sf_eqb (a b : species_form) : bool := opt_eqb (fst a) (fst b) && Z.eqb (snd a) (snd b).
(** x or 0. *)
Definition or_zero (x : option Z) : Z := match x with Some z => z | None => 0%Z end.

(** tuple(self.read_init_float(F32, default=0.0) for _ in range(n)). The default makes
    every element a float. *)
Fixpoint read_floats (n : nat) (o : fbo) : res (list N * fbo) :=
  match n with
  | O => Ok ([], o)
  | S n' =>
      rbind (read_init_float F32 (Some 0) o) (fun '(x, o) =>
      rmap (fun '(l, o) => (match x with Some b => b | None => 0 end :: l, o)) (read_floats n' o))
  end.
(** The binary32 bit pattern of 1.0. *)
Definition one_f32 : N := 0x3F800000.

(** encounter_la.py:22-43. *)
Record multiplier := mkMultiplier {
  mu_species : option Z; mu_form : option Z; mu_time : list N; mu_weather : list N }.
Definition multiplier_new (buf : list N) (offset : N) : res multiplier :=
  rbind (fbo_new buf (Some offset)) (fun o =>
  rbind (read_init_int I32 None o) (fun '(species, o) =>
  rbind (read_init_int I32 (Some 0%Z) o) (fun '(form, o) =>
  rbind (read_floats 4 o) (fun '(time, o) =>
  rmap (fun '(weather, o) => mkMultiplier species form time (one_f32 :: weather)) (read_floats 8 o))))).
(** encounter_la.py:8-19: the list and the lookup. *)
Definition multiplier_table (buf : list N) : res (list multiplier * list (species_form * multiplier)) :=
  rbind (fbo_new buf None) (fun o =>
  rmap (fun '(l, o) => (l, dict_by sf_eqb (fun m => (mu_species m, or_zero (mu_form m))) l))
    (read_init_object_array multiplier_new o)).

(** encounter_la.py:59-68. *)
Record misc := mkMisc { mi_species : option Z; mi_form : option Z; mi_alpha_level_index : option Z }.
Definition misc_new (buf : list N) (offset : N) : res misc :=
  rbind (fbo_new buf (Some offset)) (fun o =>
  rbind (read_init_int I32 None o) (fun '(species, o) =>
  rbind (read_init_int I32 (Some 0%Z) o) (fun '(form, o) =>
  let o := read_init_padding 4 o in
  rmap (fun '(index, o) => mkMisc species form index) (read_init_int I32 (Some 0%Z) o)))).
(** encounter_la.py:45-56. *)
Definition misc_table (buf : list N) : res (list misc * list (species_form * misc)) :=
  rbind (fbo_new buf None) (fun o =>
  rmap (fun '(l, o) => (l, dict_by sf_eqb (fun m => (mi_species m, or_zero (mi_form m))) l))
    (read_init_object_array misc_new o)).

(** encounter_la.py:112-118. *)
Definition spawner_f20_new (buf : list N) (offset : N) : res (option Z) :=
  rbind (fbo_new buf (Some offset)) (fun o =>
  rmap fst (read_init_int U64 None o)).
(** encounter_la.py:121-128: the coordinates. *)
Definition placement_new (buf : list N) (offset : N) : res (option vec3f) :=
  rbind (fbo_new buf (Some offset)) (fun o =>
  let o := read_init_padding 7 o in
  rmap fst (read_init_vec3f None o)).
(** l[0]. *)
Definition first {A} (l : list A) : res A := match l with x :: _ => Ok x | [] => Raise IndexError end.
(** encounter_la.py:86-109. *)
Record spawner := mkSpawner {
  sp_id : option Z; sp_group : option Z; sp_coordinates : option vec3f;
  sp_min_count : option Z; sp_max_count : option Z;
  sp_mass_outbreak : option bool; sp_water : option bool; sp_sky : option bool;
  sp_encounter_table : option Z }.
Definition spawner_new (buf : list N) (offset : N) : res spawner :=
  rbind (fbo_new buf (Some offset)) (fun o =>
  rbind (read_init_int U64 None o) (fun '(id, o) =>
  rbind (read_init_int U64 None o) (fun '(group, o) =>
  rbind (read_init_object_array placement_new o) (fun '(placements, o) =>
  rbind (first placements) (fun coordinates =>
  let o := read_init_padding 4 o in
  rbind (read_init_int I32 None o) (fun '(min_count, o) =>
  rbind (read_init_int I32 None o) (fun '(max_count, o) =>
  let o := read_init_padding 1 o in
  rbind (read_init_int_enum I8 to_bool None o) (fun '(mass_outbreak, o) =>
  rbind (read_init_int_enum I8 to_bool None o) (fun '(water, o) =>
  rbind (read_init_int_enum I8 to_bool None o) (fun '(sky, o) =>
  let o := read_init_padding 7 o in
  rbind (read_init_object_array spawner_f20_new o) (fun '(tables, o) =>
  rmap (mkSpawner id group coordinates min_count max_count mass_outbreak water sky)
    (first tables)))))))))))).
(** encounter_la.py:70-83: the list, by id and by group. *)
Definition spawner_table (buf : list N) : res (list spawner * list (option Z * spawner) * list (option Z * spawner)) :=
  rbind (fbo_new buf None) (fun o =>
  rmap (fun '(l, o) => (l, dict_by opt_eqb sp_id l, dict_by opt_eqb sp_group l))
    (read_init_object_array spawner_new o)).

(** encounter_la.py:179-198: the two tuples of multipliers. *)
Record eligibility := mkEligibility { el_time : list N; el_weather : list N }.
Definition eligibility_new (buf : list N) (offset : N) : res eligibility :=
  rbind (fbo_new buf (Some offset)) (fun o =>
  let o := read_init_padding 7 o in
  rbind (read_floats 4 o) (fun '(time, o) =>
  rmap (fun '(weather, o) => mkEligibility time (one_f32 :: weather)) (read_floats 8 o))).
(** encounter_la.py:201-207: any() reads the second field only if the first is not true. *)
Definition truthy (b : option bool) : bool := match b with Some b => b | None => false end.
Definition oybn_new (buf : list N) (offset : N) : res bool :=
  rbind (fbo_new buf (Some offset)) (fun o =>
  rbind (read_init_int_enum I8 to_bool None o) (fun '(a, o) =>
  if truthy a then Ok true
  else rmap (fun '(b, o) => truthy b) (read_init_int_enum I8 to_bool None o))).
(** encounter_la.py:157-176. Without its last field a slot has no attribute is_alpha to read. *)
Record slot8a := mkSlot8a {
  sl_species : option Z; sl_gender : option Z; sl_form : option Z; sl_guaranteed_ivs : option Z;
  sl_base_probability : option Z; sl_override_min : option Z; sl_override_max : option Z;
  sl_eligibility : option eligibility; sl_is_alpha : bool }.
Definition slot8a_new (buf : list N) (offset : N) : res slot8a :=
  rbind (fbo_new buf (Some offset)) (fun o =>
  rbind (read_init_int I32 None o) (fun '(species, o) =>
  let o := read_init_padding 1 o in
  rbind (read_init_int I32 (Some 0%Z) o) (fun '(gender, o) =>
  rbind (read_init_int I32 None o) (fun '(form, o) =>
  let o := read_init_padding 21 o in
  rbind (read_init_int I32 None o) (fun '(guaranteed_ivs, o) =>
  let o := read_init_padding 3 o in
  rbind (read_init_int I32 None o) (fun '(base_probability, o) =>
  rbind (read_init_int I32 (Some 0%Z) o) (fun '(override_min, o) =>
  rbind (read_init_int I32 (Some 0%Z) o) (fun '(override_max, o) =>
  let o := read_init_padding 13 o in
  rbind (read_init_object eligibility_new None o) (fun '(elig, o) =>
  rbind (read_init_object oybn_new None o) (fun '(oybn, o) =>
  match oybn with
  | Some is_alpha =>
      Ok (mkSlot8a species gender form guaranteed_ivs base_probability override_min override_max elig is_alpha)
  | None => Raise AttributeError
  end)))))))))).
(** encounter_la.py:144-154. *)
Record etable := mkEtable {
  et_id : option Z; et_min_level : option Z; et_max_level : option Z; et_slots : list slot8a }.
Definition etable_new (buf : list N) (offset : N) : res etable :=
  rbind (fbo_new buf (Some offset)) (fun o =>
  rbind (read_init_int U64 None o) (fun '(id, o) =>
  rbind (read_init_int I32 None o) (fun '(min_level, o) =>
  rbind (read_init_int I32 None o) (fun '(max_level, o) =>
  rmap (fun '(slots, o) => mkEtable id min_level max_level slots)
    (read_init_object_array slot8a_new o))))).
(** encounter_la.py:131-141. *)
Definition etable_table (buf : list N) : res (list etable * list (option Z * etable)) :=
  rbind (fbo_new buf None) (fun o =>
  rmap (fun '(l, o) => (l, dict_by opt_eqb et_id l)) (read_init_object_array etable_new o)).

(** encounter_la.py:232-240: the table of the second wave. *)
Definition second_wave_new (buf : list N) (offset : N) : res (option Z) :=
  rbind (fbo_new buf (Some offset)) (fun o =>
  let o := read_init_padding 7 o in
  rmap fst (read_init_int U64 None o)).
(** encounter_la.py:221-230. *)
Record group8a := mkGroup8a { gr_hash : option Z; gr_waves : list (option Z); gr_first : option Z }.
Definition group_new (buf : list N) (offset : N) : res group8a :=
  rbind (fbo_new buf (Some offset)) (fun o =>
  rbind (read_init_int U64 None o) (fun '(hash, o) =>
  rbind (read_init_object_array second_wave_new o) (fun '(waves, o) =>
  rmap (fun '(f, o) => mkGroup8a hash waves f) (read_init_int U64 None o)))).
(** encounter_la.py:209-219. *)
Definition group_table (buf : list N) : res (list group8a * list (option Z * group8a)) :=
  rbind (fbo_new buf None) (fun o =>
  rmap (fun '(l, o) => (l, dict_by opt_eqb gr_hash l)) (read_init_object_array group_new o)).

(** encounter_la.py:276-282: the hash. *)
Definition lottery_detail_new (buf : list N) (offset : N) : res (option Z) :=
  rbind (fbo_new buf (Some offset)) (fun o =>
  rmap fst (read_init_int U64 None o)).
(** encounter_la.py:254-274. The lookup of details by hash maps each hash of [full] to
    itself, so only the list is kept. *)
Record lottery := mkLottery {
  lo_hash : option Z; lo_common : list (option Z); lo_rare_1 : list (option Z);
  lo_rare_2 : list (option Z); lo_full : list (option Z) }.
Definition lottery_new (buf : list N) (offset : N) : res lottery :=
  rbind (fbo_new buf (Some offset)) (fun o =>
  rbind (read_init_int U64 None o) (fun '(hash, o) =>
  rbind (read_init_object_array lottery_detail_new o) (fun '(common, o) =>
  rbind (read_init_object_array lottery_detail_new o) (fun '(rare_1, o) =>
  rmap (fun '(rare_2, o) => mkLottery hash common rare_1 rare_2 (common ++ rare_1 ++ rare_2))
    (read_init_object_array lottery_detail_new o))))).
(** encounter_la.py:242-252. *)
Definition lottery_table (buf : list N) : res (list lottery * list (option Z * lottery)) :=
  rbind (fbo_new buf None) (fun o =>
  rmap (fun '(l, o) => (l, dict_by opt_eqb lo_hash l)) (read_init_object_array lottery_new o)).
