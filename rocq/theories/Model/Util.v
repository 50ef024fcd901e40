(** numba_pokemon_prngs/util.py, without compute_stat (see Model/Gen3State.v). *)
From Coq Require Import NArith List Bool Ascii String.
From Verif Require Import Base.Word.
Import ListNotations.
Open Scope N_scope.

(** util.py:6-13, [change_endian_u32]. Under numba the shifts are 64-bit, but the
    masks, the 32-bit local [val] and the final cast remove the extra bits. *)
Definition change_endian_u32 (val : N) : N :=
  let val := w32 val in
  let val := N.lor (N.land (shl32 val 8) 0xFF00FF00) (N.land (N.shiftr val 8) 0xFF00FF) in
  w32 (N.lor (shl32 val 16) (N.shiftr val 16)).

(** The bodies of the rotations on in-range operands. Without numba the values are
    w-bit scalars, a shift by w or more gives 0, and [np.uint8(w) - count] wraps at
    8 bits. *)
Definition rotl32_raw (val count back : N) : N := w32 (N.lor (N.shiftl val count) (N.shiftr val back)).
Definition rotr32_raw (val count back : N) : N := w32 (N.lor (N.shiftl val back) (N.shiftr val count)).
Definition rotl64_raw (val count back : N) : N := w64 (N.lor (N.shiftl val count) (N.shiftr val back)).
Definition rotr64_raw (val count back : N) : N := w64 (N.lor (N.shiftl val back) (N.shiftr val count)).

(** Under numba all operands are 64-bit, [np.uint8(w) - count] wraps at 64 bits, and
    a shift by 64 or more is undefined. *)
Definition rotate (m : mode) (raw : N -> N -> N -> N) (width val count : N) : res N :=
  let count := w8 count in
  match m with
  | NumPy => Ok (raw val count (sub8 width count))
  | Numba =>
      let back := sub64 width count in
      if (64 <=? count) || (64 <=? back) then Raise UndefinedShift else Ok (raw val count back)
  end.

(** util.py:16-21 *)
Definition rotate_left_u32 (m : mode) (val count : N) : res N := rotate m rotl32_raw 32 (w32 val) count.
(** util.py:24-29 *)
Definition rotate_right_u32 (m : mode) (val count : N) : res N := rotate m rotr32_raw 32 (w32 val) count.
(** util.py:32-37 *)
Definition rotate_left_u64 (m : mode) (val count : N) : res N := rotate m rotl64_raw 64 (w64 val) count.
(** util.py:40-45 *)
Definition rotate_right_u64 (m : mode) (val count : N) : res N := rotate m rotr64_raw 64 (w64 val) count.

(** util.py:60, [HEX_LOOKUP]: entry i is f"{i:02X}". *)
Definition hex_char (d : N) : ascii := ascii_of_N (if d <? 10 then 48 + d else 55 + d).
Definition HEX_LOOKUP : list string :=
  map (fun i => let i := N.of_nat i in
                String (hex_char (i / 16)) (String (hex_char (i mod 16)) EmptyString)) (seq 0 256).

(** util.py:63-71, [hex_32]. The argument is not cast without numba, so a larger
    number indexes past the table. *)
Definition hex_32 (m : mode) (num : N) : res string :=
  let num := match m with NumPy => num | Numba => w32 num end in
  let look i := match nth_error HEX_LOOKUP (N.to_nat i) with Some s => Ok s | None => Raise IndexError end in
  rbind (look (N.shiftr num 24)) (fun a =>
  rbind (look (N.land (N.shiftr num 16) 0xFF)) (fun b =>
  rbind (look (N.land (N.shiftr num 8) 0xFF)) (fun c =>
  rbind (look (N.land num 0xFF)) (fun d => Ok (append (append (append a b) c) d))))).
