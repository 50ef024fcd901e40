(** The rational value of a float, and which floats are binary32 or binary64 numbers. *)
From Coq Require Import ZArith QArith SpecFloat.
Open Scope Q_scope.

(** (-1)^s m 2^e. *)
Definition value (x : spec_float) : Q :=
  match x with
  | S754_finite s m e => inject_Z (if s then Z.neg m else Z.pos m) * (2 # 1) ^ e
  | _ => 0
  end.
(** Neither infinite nor NaN, and in the normal form of the format ([valid_binary] is the
    standard library's). *)
Definition finite (prec emax : Z) (x : spec_float) : Prop :=
  match x with
  | S754_zero _ => True
  | S754_finite _ _ _ => valid_binary prec emax x = true
  | _ => False
  end.
Definition float32 : spec_float -> Prop := finite 24 128.
Definition float64 : spec_float -> Prop := finite 53 1024.
