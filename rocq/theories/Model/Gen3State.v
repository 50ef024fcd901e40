(** Model of numba_pokemon_prngs/gen3/util.py, gen3/state.py and the nature part of
    util.py (lines 48-57). *)
From Coq Require Import NArith ZArith List Bool Floats.SpecFloat.
From Verif Require Import Base.Word Model.Float.
Import ListNotations.
Open Scope N_scope.

(** util.py:50-51: the Python float 0.1 (the double nearest to 1/10). *)
Definition tenth : spec_float := f64_div (f64_of_N 1) (f64_of_N 10).

(** util.py:50-51: [row[j] -= 0.1] and [row[j] += 0.1] on a float32 row. The float32
    item and the Python float are added as float64 and the sum is stored as float32. *)
Definition row_sub (row : list spec_float) (j : nat) : list spec_float :=
  aset row j (f32_of_f64 (f64_sub (f64_of_f32 (nth j row S754_nan)) tenth)).
Definition row_add (row : list spec_float) (j : nat) : list spec_float :=
  aset row j (f32_of_f64 (f64_add (f64_of_f32 (nth j row S754_nan)) tenth)).

(** util.py:48-51, NATURE_MODIFIERS: the module level loop, one row per nature. *)
Definition nature_row (i : nat) : list spec_float :=
  row_add (row_sub (repeat (f32_of_N 1) 5) (i mod 5)) (i / 5).
Definition NATURE_MODIFIERS : list (list spec_float) := map nature_row (seq 0 25).

(** util.py:54-57, [compute_stat]. [stat] is already a uint16, [nature] and [index]
    uint8. Index 0 reads column -1, which Python and numba both take from the end.
    Reads outside the table raise in NumPy; compiled code does not check them, and
    the model raises there too. A product of 65536 or more is truncated to 16 bits;
    this follows NumPy, in compiled code that conversion is undefined. *)
Definition compute_stat (stat nature index : N) : res N :=
  let column := if index =? 0 then 4%nat else N.to_nat (index - 1) in
  match nth_error NATURE_MODIFIERS (N.to_nat nature) with
  | None => Raise IndexError
  | Some row =>
      match nth_error row column with
      | None => Raise IndexError
      | Some f => Ok (w16 (Z.to_N (f_trunc (f32_mul (f32_of_N stat) f))))
      end
  end.

(** gen3/util.py:7-16, [get_gender]. *)
Definition get_gender (pid gender_ratio : N) : N :=
  if gender_ratio =? 255 then 2
  else if gender_ratio =? 254 then 1
  else if gender_ratio =? 0 then 0
  else if N.land pid 0xFF <? gender_ratio then 1 else 0.

(** gen3/util.py:19-27, [get_shiny]. *)
Definition get_shiny (pid tsv : N) : N :=
  let psv := N.lxor (N.shiftr pid 16) (N.land pid 0xFFFF) in
  if tsv =? psv then 2
  else if N.lxor tsv psv <? 8 then 1
  else 0.

(** gen3/util.py:30-39, [unown_check]. *)
Definition unown_check (pid form : N) : bool :=
  let letter :=
    N.lor (N.lor (N.lor (N.shiftr (N.land pid 0x3000000) 18)
                        (N.shiftr (N.land pid 0x30000) 12))
                 (N.shiftr (N.land pid 0x300) 6))
          (N.land pid 3) mod 0x1C in
  letter =? form.

(** data/personal/personal_info.py:79-105, PersonalInfo3: the fields that generation 3
    code reads. The byte layout of the record is modelled in Model/Personal.v. *)
Record personal3 := mkPersonal3 {
  pi_hp : N; pi_attack : N; pi_defense : N; pi_speed : N;
  pi_special_attack : N; pi_special_defense : N;
  pi_type_1 : N; pi_type_2 : N; pi_gender_ratio : N;
  pi_ability_1 : N; pi_ability_2 : N }.

(** An attribute of a state: without numba an assignment keeps the Python value, so
    [hidden_power_strength] can be a float. *)
Inductive attr := AInt (n : N) | AFloat (f : spec_float).

(** gen3/state.py:20-33,77: the fields of GeneratorState. *)
Record gstate := mkGState {
  g_advance : N; g_pid : N; g_species : N; g_form : N; g_stats : list N;
  g_ability_index : N; g_ivs : list N; g_ability : N; g_characteristic : N;
  g_gender : N; g_hidden_power : N; g_hidden_power_strength : attr; g_level : N;
  g_nature : N; g_shiny : N }.

(** gen3/state.py:11-14. *)
Definition ORDER : list N := [0; 1; 2; 5; 3; 4].
Definition CHAR_ORDER : list N := [0; 1; 2; 3; 4; 5; 0; 1; 2; 3; 4].

(** Local variables of [update_stats] (gen3/state.py:39-43). *)
Record upd := mkUpd {
  u_hpv : N; u_hps : N; u_stats : list N; u_char : N; u_max_iv : N }.

(** gen3/state.py:53-66: one iteration of the loop. [hidden_power_val] and
    [hidden_power_strength_value] start as uint8 but become int64, so no sum wraps. *)
Definition update_body (ivs base_stats : list N) (level nature ec_index : N)
    (i : nat) (u : upd) : res upd :=
  let ord := N.to_nat (aget ORDER i) in
  let hpv := u_hpv u + N.shiftl (N.land (aget ivs ord) 1) (N.of_nat i) in
  let hps := u_hps u + N.shiftl (N.land (N.shiftr (aget ivs ord) 1) 1) (N.of_nat i) in
  let stat := w16 ((2 * aget base_stats i + aget ivs i) * level / 100) in
  rbind
    (match i with
     | O => asetr (u_stats u) i (w16 (stat + level + 10))
     | _ => rbind (compute_stat (w16 (stat + 5)) nature (N.of_nat i))
                  (fun s => asetr (u_stats u) i s)
     end)
    (fun stats =>
       let index := aget CHAR_ORDER (N.to_nat ec_index + i) in
       let iv := aget ivs (N.to_nat (aget ORDER (N.to_nat index))) in
       if u_max_iv u <? iv
       then Ok (mkUpd hpv hps stats index iv)
       else Ok (mkUpd hpv hps stats (u_char u) (u_max_iv u))).

(** gen3/state.py:69: [30 + (hidden_power_strength_value * 40 / 63)], a float64; numba
    truncates it when it is stored in the uint8 field. *)
Definition strength_float (v : N) : spec_float :=
  f64_add (f64_of_N 30) (f64_div (f64_of_N (v * 40)) (f64_of_N 63)).
Definition strength_attr (m : mode) (v : N) : attr :=
  match m with
  | NumPy => AFloat (strength_float v)
  | Numba => AInt (w8 (Z.to_N (f_trunc (strength_float v))))
  end.

(** gen3/state.py:79-103, [GeneratorState.__init__] with [update_stats]
    (gen3/state.py:35-70). [ivs] are six uint8 values. [junk] is what
    [np.empty(6, np.uint16)] happens to hold. *)
Definition gstate_new (m : mode) (junk : list N)
    (advance pid species form : N) (ivs : list N) (ability level shiny : N)
    (info : personal3) : res gstate :=
  let pid := w32 pid in
  let level := w8 level in
  let nature := pid mod 25 in
  let ec_index := pid mod 6 in
  let base_stats := [pi_hp info; pi_attack info; pi_defense info;
                     pi_special_attack info; pi_special_defense info; pi_speed info] in
  rbind (for_range_r 6 0 (update_body ivs base_stats level nature ec_index)
                     (mkUpd 0 0 junk ec_index 0))
    (fun u =>
       Ok {| g_advance := w32 advance; g_pid := pid; g_species := w16 species;
             g_form := w8 form; g_stats := u_stats u;
             g_ability_index := if ability =? 0 then pi_ability_1 info else pi_ability_2 info;
             g_ivs := ivs; g_ability := w8 ability;
             g_characteristic := w8 (u_char u * 5 + u_max_iv u mod 5);
             g_gender := get_gender pid (pi_gender_ratio info);
             g_hidden_power := w8 (u_hpv u * 15 / 63);
             g_hidden_power_strength := strength_attr m (u_hps u);
             g_level := level; g_nature := nature; g_shiny := w8 shiny |}).
