(** Arguments for which a call means the same with and without numba. *)
From Coq Require Import NArith ZArith List.
From Verif Require Import Base.Word Model.Xorshift Model.Xoroshiro Model.Lcrng32 Model.MT Model.SFMT.
Open Scope N_scope.

(** Divisors are not zero once they are stored in their type; ranges are not empty. *)
Definition xs_arguments (op : xs_op) : Prop :=
  match op with
  | XRange minimum maximum => (- 2 ^ 31 <= minimum < maximum)%Z /\ (maximum < 2 ^ 31)%Z
  | XRand maximum => maximum mod 2^32 <> 0
  | XAlt maximum => maximum <> 0
  | _ => True
  end.
Definition xo_arguments (op : xo_op) : Prop :=
  match op with ORand _ maximum => 1 <= maximum < 2^32 | _ => True end.
Definition sm_arguments (op : sm_op) : Prop :=
  match op with SmRand maximum => maximum <> 0 | _ => True end.
(** The counter of [advance] stays in 32 bits; [shuffle] is left to the other methods. *)
Definition mt_arguments (op : mt_op) : Prop :=
  match op with
  | MAdvance n => n + 624 < 2^32
  | MRand maximum => maximum <= 2^32
  | MRandMod maximum => 0 < maximum < 2^32
  | MShuffle => False
  | _ => True
  end.
Definition sfmt_arguments (op : sfmt_op) : Prop :=
  match op with
  | SAdvance n => 2 * n + 624 < 2^32
  | SRand maximum => 0 < maximum < 2^64
  | SShuffle => False
  | _ => True
  end.
