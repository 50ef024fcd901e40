(** What a Gen 3 state shows under NumPy 2, in plain arithmetic. *)
From Coq Require Import NArith List Floats.SpecFloat.
From Verif Require Import Model.Float Model.Scalars Model.NumPy2 Model.Gen3State Spec.Gen3Spec.
Import ListNotations.
Open Scope list_scope.
Open Scope N_scope.

(** The stat before level, nature and constants are applied, without and with a cut to 8 bits. *)
Definition core (v : numpy) (base iv level : N) : N :=
  match v with
  | NumPy_1 => (2 * base + iv) * level / 100
  | NumPy_2 => (2 * base + iv) * level mod 256 / 100
  end.

(** An argument is accepted at a width without a change of value. *)
Definition fits (w : N) (a : scalar) : Prop := value a < 2 ^ w.

(** The six stats of a state with nature [n]: the code raises number n / 5 of the five after
    HP and lowers number n mod 5. *)
Definition stats_of (v : numpy) (n level : N) (base ivs : list N) : list N :=
  let other i := modified (n / 5 + 1 =? N.of_nat i) (n mod 5 + 1 =? N.of_nat i)
                          (core v (nth i base 0) (nth i ivs 0) level + 5) in
  [core v (nth 0 base 0) (nth 0 ivs 0) level + level + 10; other 1%nat; other 2%nat; other 3%nat; other 4%nat; other 5%nat].
Definition bases (info : personal3) : list N :=
  [pi_hp info; pi_attack info; pi_defense info; pi_special_attack info; pi_special_defense info; pi_speed info].

(** The strength of hidden power from the number that is divided by 63. *)
Definition power_float (x : N) : spec_float := f64_add (f64_of_N 30) (f64_div (f64_of_N x) (f64_of_N 63)).

(** A Python int that does not fit. *)
Definition too_big (w : N) (a : scalar) : Prop := match a with PyInt n => 2 ^ w <= n | _ => False end.
