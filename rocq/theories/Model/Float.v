(** binary32 and binary64 arithmetic, from the standard library's [SpecFloat] (the
    specification of primitive floats, which has no axioms). Round to nearest, ties
    to even. Library only. *)
From Coq Require Import NArith ZArith SpecFloat.
Open Scope Z_scope.

Definition f32_of_Z (z : Z) : spec_float := binary_normalize 24 128 z 0 false.
Definition f64_of_Z (z : Z) : spec_float := binary_normalize 53 1024 z 0 false.
Definition f32_of_N (n : N) : spec_float := f32_of_Z (Z.of_N n).
Definition f64_of_N (n : N) : spec_float := f64_of_Z (Z.of_N n).
Definition f32_mul : spec_float -> spec_float -> spec_float := SFmul 24 128.
Definition f32_div : spec_float -> spec_float -> spec_float := SFdiv 24 128.
Definition f64_mul : spec_float -> spec_float -> spec_float := SFmul 53 1024.
Definition f64_add : spec_float -> spec_float -> spec_float := SFadd 53 1024.
Definition f64_sub : spec_float -> spec_float -> spec_float := SFsub 53 1024.
Definition f64_div : spec_float -> spec_float -> spec_float := SFdiv 53 1024.

(** Conversion: round the value to the format. A binary32 value is already a
    binary64 value, apart from the normal form of the significand. *)
Definition f_round (prec emax : Z) (x : spec_float) : spec_float :=
  match x with
  | S754_finite s m e => binary_normalize prec emax (if s then Z.neg m else Z.pos m) e s
  | _ => x
  end.
Definition f32_of_f64 : spec_float -> spec_float := f_round 24 128.
Definition f64_of_f32 : spec_float -> spec_float := f_round 53 1024.

(** Truncation towards zero of a finite value. *)
Definition f_trunc (x : spec_float) : Z :=
  match x with
  | S754_finite s m e =>
      let a := if 0 <=? e then Z.pos m * 2 ^ e else Z.pos m / 2 ^ (- e) in
      if s then - a else a
  | _ => 0
  end.
