(** numba_pokemon_prngs/sha1.py, class SHA1. *)
From Coq Require Import NArith List Bool.
From Verif Require Import Base.Word Model.Util Model.Lcrng64 Model.LcrngClasses Model.SHA1.
Import ListNotations.
Open Scope N_scope.

(** sha1.py:346-347: the attributes. *)
Record sha1 := mk_sha1 { sha_data : list N; sha_ds_type : N }.

Definition dget (data : list N) (i : nat) : N := aget data i.
(** Store into the uint32 array. *)
Definition dset (data : list N) (i : nat) (v : N) : list N := aset data i (w32 v).

(** sha1.py:349-384, [__init__]; np.empty leaves any 80 words. *)
Definition sha1_new (junk : list N) (version language ds_type mac : N) (soft_reset : bool) (v_frame gx_state : N) : sha1 :=
  let mac := w64 mac in
  let v_frame := w8 v_frame in
  let gx_state := w8 gx_state in
  let data := junk in
  let nazo := get_nazo version language ds_type in
  let data := for_range 5 0 (fun i data => dset data i (aget nazo i)) data in
  let data := dset data 6 (N.land mac 0xFFFF) in
  let data := if soft_reset then dset data 6 (N.lxor (dget data 6) 0x1000000) else data in
  let data := dset data 7 (N.lxor (N.lxor (w32 (N.shiftr mac 16)) (shl32 v_frame 24)) gx_state) in
  let data := dset data 10 0 in
  let data := dset data 11 0 in
  let data := dset data 13 0x80000000 in
  let data := dset data 14 0 in
  let data := dset data 15 0x1A0 in
  let data := dset data 18 (rotl32 (N.lxor (N.lxor (N.lxor (dget data 15) (dget data 10)) (dget data 4)) (dget data 2)) 1) in
  mk_sha1 data (w8 ds_type).

(** sha1.py:566-577, [calc_w], and 579-590, [calc_w_simd]. *)
Definition calc_w (data : list N) (i : nat) : list N :=
  dset data i (rotl32 (N.lxor (N.lxor (N.lxor (dget data (i - 3)) (dget data (i - 8)))
                                        (dget data (i - 14))) (dget data (i - 16))) 1).
Definition calc_w_simd (data : list N) (i : nat) : list N :=
  dset data i (rotl32 (N.lxor (N.lxor (N.lxor (dget data (i - 6)) (dget data (i - 16)))
                                        (dget data (i - 28))) (dget data (i - 32))) 2).

(** sha1.py:489-525, [precompute]. *)
Definition sha1_precompute (self : sha1) : sha1 * list N :=
  let data := sha_data self in
  let alpha := pre_rounds (dget data) 0x67452301 0xEFCDAB89 0x98BADCFE 0x10325476 0xC3D2E1F0 in
  let data := fold_left calc_w [16; 19; 21; 22; 24; 27; 30]%nat data in
  (mk_sha1 data (sha_ds_type self), alpha).

(** sha1.py:386-487, [hash_seed]. *)
Definition sha1_hash_seed (self : sha1) (alpha : list N) : sha1 * N :=
  let data := sha_data self in
  let data := fold_left calc_w [17; 20; 23; 25; 26; 28; 29; 31]%nat data in
  let data := for_range 48 32 (fun i data => calc_w_simd data i) data in
  let '(b, c) := hash_rounds (dget data) (aget alpha 0) (aget alpha 1) (aget alpha 2) (aget alpha 3) (aget alpha 4) in
  let part1 := change_endian_u32 (w32 (b + 0x67452301)) in
  let part2 := change_endian_u32 (w32 (c + 0xEFCDAB89)) in
  let seed := N.lor (shl64 part2 32) part1 in
  (mk_sha1 data (sha_ds_type self), lcrng64_next (p64_add BWRNG) (p64_mult BWRNG) (lcrng64_new seed)).

(** sha1.py:527-530, [set_button]. *)
Definition sha1_set_button (self : sha1) (button : N) : sha1 :=
  mk_sha1 (dset (sha_data self) 12 (w32 button)) (sha_ds_type self).

(** BCD[i]; out of bounds raises IndexError without numba and is undefined with it. *)
Definition bcd_at (i : N) : res N :=
  match nth_error BCD (N.to_nat i) with Some v => Ok v | None => Raise IndexError end.

(** sha1.py:532-544, [set_date]. The year offset wraps at 16 bits without numba, at 64
    with; either way it is out of bounds. *)
Definition sha1_set_date (self : sha1) (year month day day_of_week : N) : res sha1 :=
  rbind (bcd_at (w16 (w16 year + (65536 - 2000)))) (fun y =>
  rbind (bcd_at (w8 month)) (fun mo =>
  rbind (bcd_at (w8 day)) (fun d =>
  Ok (mk_sha1 (dset (sha_data self) 8
        (N.lor (N.lor (N.lor (shl32 y 24) (shl32 mo 16)) (shl32 d 8)) (w8 day_of_week)))
      (sha_ds_type self))))).

(** sha1.py:546-550, [set_timer0]. *)
Definition sha1_set_timer0 (self : sha1) (timer0 vcount : N) : sha1 :=
  mk_sha1 (dset (sha_data self) 5 (change_endian_u32 (N.lor (shl32 (w32 vcount) 16) (w32 timer0))))
          (sha_ds_type self).

(** sha1.py:552-564, [set_time]. *)
Definition sha1_set_time (self : sha1) (hour minute second : N) : res sha1 :=
  rbind (bcd_at (w8 hour)) (fun h =>
  let h_val := shl32 (w32 (h + (if (12 <=? w8 hour) && negb (sha_ds_type self =? DS_DS3) then 0x40 else 0))) 24 in
  rbind (bcd_at (w8 minute)) (fun mi =>
  rbind (bcd_at (w8 second)) (fun s =>
  Ok (mk_sha1 (dset (sha_data self) 9 (N.lor (N.lor h_val (shl32 mi 16)) (shl32 s 8)))
              (sha_ds_type self))))).

(** A session: an object and the last alpha computed on it. *)
Inductive sha_op :=
| SDate (year month day day_of_week : N) | STime (hour minute second : N)
| STimer0 (timer0 vcount : N) | SButton (button : N) | SPrecompute | SHash.
Definition sha_call (s : sha1 * list N) (op : sha_op) : (sha1 * list N) * outcome :=
  let '(self, alpha) := s in
  match op with
  | SDate y mo d dw => match sha1_set_date self y mo d dw with
                       | Ok self => ((self, alpha), ONone) | Raise e => (s, OExn e) end
  | STime h mi sec => match sha1_set_time self h mi sec with
                      | Ok self => ((self, alpha), ONone) | Raise e => (s, OExn e) end
  | STimer0 t v => ((sha1_set_timer0 self t v, alpha), ONone)
  | SButton b => ((sha1_set_button self b, alpha), ONone)
  | SPrecompute => (sha1_precompute self, ONone)
  | SHash => let '(self, r) := sha1_hash_seed self alpha in ((self, alpha), OVal r)
  end.
Fixpoint calls_with {S O R} (step : S -> O -> S * R) (s : S) (ops : list O) : S * list R :=
  match ops with
  | [] => (s, [])
  | op :: t => let '(s, o) := step s op in
               let '(s, os) := calls_with step s t in (s, o :: os)
  end.
Definition sha_calls : sha1 * list N -> list sha_op -> (sha1 * list N) * list outcome :=
  calls_with sha_call.
