(** Generation 3 rules, stated without reference to the code. The records [slot3],
    [area3], [personal3] and [gstate] are only used as containers of data. *)
From Coq Require Import NArith ZArith List Bool.
From Verif Require Import Spec.LcrngSpec.
Import ListNotations.
Open Scope N_scope.

(** * Natures *)

Inductive stat := Atk | Def | SpA | SpD | Spe.
Definition stat_eqb (a b : stat) : bool :=
  match a, b with
  | Atk, Atk | Def, Def | SpA, SpA | SpD, SpD | Spe, Spe => true
  | _, _ => false
  end.

(** The 25 natures by number (resources/txt/natures_en.txt has their names in this
    order): the stat each raises and the stat each lowers. *)
Definition natures : list (stat * stat) :=
  [ (Atk, Atk);  (* Hardy *)   (Atk, Def);  (* Lonely *)  (Atk, Spe);  (* Brave *)
    (Atk, SpA);  (* Adamant *) (Atk, SpD);  (* Naughty *)
    (Def, Atk);  (* Bold *)    (Def, Def);  (* Docile *)  (Def, Spe);  (* Relaxed *)
    (Def, SpA);  (* Impish *)  (Def, SpD);  (* Lax *)
    (Spe, Atk);  (* Timid *)   (Spe, Def);  (* Hasty *)   (Spe, Spe);  (* Serious *)
    (Spe, SpA);  (* Jolly *)   (Spe, SpD);  (* Naive *)
    (SpA, Atk);  (* Modest *)  (SpA, Def);  (* Mild *)    (SpA, Spe);  (* Quiet *)
    (SpA, SpA);  (* Bashful *) (SpA, SpD);  (* Rash *)
    (SpD, Atk);  (* Calm *)    (SpD, Def);  (* Gentle *)  (SpD, Spe);  (* Sassy *)
    (SpD, SpA);  (* Careful *) (SpD, SpD)   (* Quirky *) ].

(** The game's modifier of one stat by a nature: 110%, 90% or 100%, rounded down. *)
Definition modified (up down : bool) (v : N) : N :=
  if up then if down then v else v * 11 / 10
  else if down then v * 9 / 10 else v.
Definition nature_stat (nature : N) (s : stat) (v : N) : N :=
  let '(up, down) := nth (N.to_nat nature) natures (Atk, Atk) in
  modified (stat_eqb up s) (stat_eqb down s) v.

(** The stat before its nature, and hit points. *)
Definition raw_stat (base iv level : N) : N := (2 * base + iv) * level / 100 + 5.
Definition hp_stat (base iv level : N) : N := (2 * base + iv) * level / 100 + level + 10.

(** * Gender, shininess, Unown letters *)

Definition bit (x k : N) : N := N.b2n (N.testbit x k).

(** Two bits from each byte of the PID, most significant byte first. *)
Definition unown_letter (pid : N) : N :=
  (128 * bit pid 25 + 64 * bit pid 24 + 32 * bit pid 17 + 16 * bit pid 16
   + 8 * bit pid 9 + 4 * bit pid 8 + 2 * bit pid 1 + bit pid 0) mod 28.

Inductive gender := Male | Female | Genderless.
Definition gender_of (pid ratio : N) : gender :=
  if ratio =? 255 then Genderless
  else if ratio =? 254 then Female
  else if ratio =? 0 then Male
  else if pid mod 256 <? ratio then Female else Male.
Definition gender_code (g : gender) : N :=
  match g with Male => 0 | Female => 1 | Genderless => 2 end.

Inductive shininess := NotShiny | Star | Square.
(** The distance between the trainer value and the PID value. *)
Definition shiny_of (pid tsv : N) : shininess :=
  let d := N.lxor tsv (N.lxor (pid / 65536) (pid mod 65536)) in
  if d =? 0 then Square else if d <? 8 then Star else NotShiny.
Definition shiny_code (s : shininess) : N :=
  match s with NotShiny => 0 | Star => 1 | Square => 2 end.

(** * Characteristic and hidden power *)

(** IVs are listed as HP, Atk, Def, SpA, SpD, Spe; the game counts stats in the order
    HP, Atk, Def, Spe, SpA, SpD. *)
Definition iv_in_game_order (ivs : list N) (k : N) : N :=
  match k with
  | 0 => nth 0 ivs 0 | 1 => nth 1 ivs 0 | 2 => nth 2 ivs 0
  | 3 => nth 5 ivs 0 | 4 => nth 3 ivs 0 | _ => nth 4 ivs 0
  end.

(** [c] is the characteristic: it names the first stat, in cyclic game order from
    PID mod 6 on, that has the highest IV, and that IV modulo 5. *)
Definition characteristic_is (pid : N) (ivs : list N) (c : N) : Prop :=
  exists d, d < 6 /\
    let at_ j := iv_in_game_order ivs ((pid mod 6 + j) mod 6) in
    (forall j, j < 6 -> at_ j <= at_ d) /\
    (forall j, j < d -> at_ j < at_ d) /\
    c = 5 * ((pid mod 6 + d) mod 6) + at_ d mod 5.

(** Bit [b] of the six IVs as a number, HP lowest. *)
Definition iv_bits (ivs : list N) (b : N) : N :=
  bit (iv_in_game_order ivs 0) b + 2 * bit (iv_in_game_order ivs 1) b
  + 4 * bit (iv_in_game_order ivs 2) b + 8 * bit (iv_in_game_order ivs 3) b
  + 16 * bit (iv_in_game_order ivs 4) b + 32 * bit (iv_in_game_order ivs 5) b.
Definition hidden_power_type (ivs : list N) : N := iv_bits ivs 0 * 15 / 63.
Definition hidden_power_power (ivs : list N) : N := 30 + iv_bits ivs 1 * 40 / 63.

(** * Rands *)

(** The [k]-th 16-bit rand (from 1) of the main generator started at seed [s]. *)
Definition rand_at (s k : N) : N := lcg_steps 32 0x41C64E6D 0x6073 k s / 65536.

(** * Slot percentages *)

(** The slot of a roll, given cumulative percentages: the first one above the roll. *)
Fixpoint slot_of_roll (cumulative : list Z) (r : Z) : N :=
  match cumulative with
  | [] => 0
  | c :: rest => if (r <? c)%Z then 0 else 1 + slot_of_roll rest r
  end.

(** The same with every slot but the last ending one roll early. *)
Fixpoint slot_one_early (cumulative : list Z) (r : Z) : N :=
  match cumulative with
  | [] => 0
  | [_] => 0
  | c :: rest => if (r + 1 <? c)%Z then 0 else 1 + slot_one_early rest r
  end.

(** Strictly increasing, starting above [lo], ending at 100. *)
Fixpoint increasing_to_100 (lo : Z) (l : list Z) : Prop :=
  match l with
  | [] => False
  | [c] => (lo < c)%Z /\ c = 100%Z
  | c :: rest => (lo < c)%Z /\ increasing_to_100 c rest
  end.
