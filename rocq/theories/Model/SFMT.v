(** Model of numba_pokemon_prngs/mersenne_twister/sfmt.py. *)
From Coq Require Import NArith ZArith List.
From Verif Require Import Base.Word.
Import ListNotations.
Open Scope N_scope.

(** * The Python shuffle (used without numba), sfmt.py:13-120.
    Generated by tools/gen_sfmt.py, one [let] per source line. The shifted values
    are int64 in NumPy and never lose bits there; the store into the uint32 array
    truncates. *)

(** sfmt.py:20-43. *)
Definition sfmt_py_first (st : list N) : list N :=
  let x_0 := (N.shiftl (aget st 0%nat) 8) in
  let x_1 := (N.lor (N.shiftl (aget st 1%nat) 8) (N.shiftr (aget st 0%nat) 24)) in
  let x_2 := (N.lor (N.shiftl (aget st 2%nat) 8) (N.shiftr (aget st 1%nat) 24)) in
  let x_3 := (N.lor (N.shiftl (aget st 3%nat) 8) (N.shiftr (aget st 2%nat) 24)) in
  let y_0 := (N.lor (N.shiftl (aget st 617%nat) 24) (N.shiftr (aget st 616%nat) 8)) in
  let y_1 := (N.lor (N.shiftl (aget st 618%nat) 24) (N.shiftr (aget st 617%nat) 8)) in
  let y_2 := (N.lor (N.shiftl (aget st 619%nat) 24) (N.shiftr (aget st 618%nat) 8)) in
  let y_3 := (N.shiftr (aget st 619%nat) 8) in
  let b_0 := (N.land (N.shiftr (aget st 488%nat) 11) 0xDFFFFFEF) in
  let b_1 := (N.land (N.shiftr (aget st 489%nat) 11) 0xDDFECB7F) in
  let b_2 := (N.land (N.shiftr (aget st 490%nat) 11) 0xBFFAFFFF) in
  let b_3 := (N.land (N.shiftr (aget st 491%nat) 11) 0xBFFFFFF6) in
  let d_0 := (N.shiftl (aget st 620%nat) 18) in
  let d_1 := (N.shiftl (aget st 621%nat) 18) in
  let d_2 := (N.shiftl (aget st 622%nat) 18) in
  let d_3 := (N.shiftl (aget st 623%nat) 18) in
  let st := aset st 0%nat (w32 (N.lxor (aget st 0%nat) (N.lxor (N.lxor (N.lxor x_0 y_0) b_0) d_0))) in
  let st := aset st 1%nat (w32 (N.lxor (aget st 1%nat) (N.lxor (N.lxor (N.lxor x_1 y_1) b_1) d_1))) in
  let st := aset st 2%nat (w32 (N.lxor (aget st 2%nat) (N.lxor (N.lxor (N.lxor x_2 y_2) b_2) d_2))) in
  let st := aset st 3%nat (w32 (N.lxor (aget st 3%nat) (N.lxor (N.lxor (N.lxor x_3 y_3) b_3) d_3))) in
  st.

(** sfmt.py:45-68. *)
Definition sfmt_py_second (st : list N) : list N :=
  let x_0 := (N.shiftl (aget st 4%nat) 8) in
  let x_1 := (N.lor (N.shiftl (aget st 5%nat) 8) (N.shiftr (aget st 4%nat) 24)) in
  let x_2 := (N.lor (N.shiftl (aget st 6%nat) 8) (N.shiftr (aget st 5%nat) 24)) in
  let x_3 := (N.lor (N.shiftl (aget st 7%nat) 8) (N.shiftr (aget st 6%nat) 24)) in
  let y_0 := (N.lor (N.shiftl (aget st 621%nat) 24) (N.shiftr (aget st 620%nat) 8)) in
  let y_1 := (N.lor (N.shiftl (aget st 622%nat) 24) (N.shiftr (aget st 621%nat) 8)) in
  let y_2 := (N.lor (N.shiftl (aget st 623%nat) 24) (N.shiftr (aget st 622%nat) 8)) in
  let y_3 := (N.shiftr (aget st 623%nat) 8) in
  let b_0 := (N.land (N.shiftr (aget st 492%nat) 11) 0xDFFFFFEF) in
  let b_1 := (N.land (N.shiftr (aget st 493%nat) 11) 0xDDFECB7F) in
  let b_2 := (N.land (N.shiftr (aget st 494%nat) 11) 0xBFFAFFFF) in
  let b_3 := (N.land (N.shiftr (aget st 495%nat) 11) 0xBFFFFFF6) in
  let d_0 := (N.shiftl (aget st 0%nat) 18) in
  let d_1 := (N.shiftl (aget st 1%nat) 18) in
  let d_2 := (N.shiftl (aget st 2%nat) 18) in
  let d_3 := (N.shiftl (aget st 3%nat) 18) in
  let st := aset st 4%nat (w32 (N.lxor (aget st 4%nat) (N.lxor (N.lxor (N.lxor x_0 y_0) b_0) d_0))) in
  let st := aset st 5%nat (w32 (N.lxor (aget st 5%nat) (N.lxor (N.lxor (N.lxor x_1 y_1) b_1) d_1))) in
  let st := aset st 6%nat (w32 (N.lxor (aget st 6%nat) (N.lxor (N.lxor (N.lxor x_2 y_2) b_2) d_2))) in
  let st := aset st 7%nat (w32 (N.lxor (aget st 7%nat) (N.lxor (N.lxor (N.lxor x_3 y_3) b_3) d_3))) in
  st.

(** sfmt.py:71-94. *)
Definition sfmt_py_loop1 (i : nat) (st : list N) : list N :=
  let x_0 := (N.shiftl (aget st i) 8) in
  let x_1 := (N.lor (N.shiftl (aget st (i + 1)%nat) 8) (N.shiftr (aget st i) 24)) in
  let x_2 := (N.lor (N.shiftl (aget st (i + 2)%nat) 8) (N.shiftr (aget st (i + 1)%nat) 24)) in
  let x_3 := (N.lor (N.shiftl (aget st (i + 3)%nat) 8) (N.shiftr (aget st (i + 2)%nat) 24)) in
  let b_0 := (N.land (N.shiftr (aget st (i + 488)%nat) 11) 0xDFFFFFEF) in
  let b_1 := (N.land (N.shiftr (aget st (i + 489)%nat) 11) 0xDDFECB7F) in
  let b_2 := (N.land (N.shiftr (aget st (i + 490)%nat) 11) 0xBFFAFFFF) in
  let b_3 := (N.land (N.shiftr (aget st (i + 491)%nat) 11) 0xBFFFFFF6) in
  let d_0 := (N.shiftl (aget st (i - 4)%nat) 18) in
  let d_1 := (N.shiftl (aget st (i - 3)%nat) 18) in
  let d_2 := (N.shiftl (aget st (i - 2)%nat) 18) in
  let d_3 := (N.shiftl (aget st (i - 1)%nat) 18) in
  let y_0 := (N.lor (N.shiftl (aget st (i - 7)%nat) 24) (N.shiftr (aget st (i - 8)%nat) 8)) in
  let y_1 := (N.lor (N.shiftl (aget st (i - 6)%nat) 24) (N.shiftr (aget st (i - 7)%nat) 8)) in
  let y_2 := (N.lor (N.shiftl (aget st (i - 5)%nat) 24) (N.shiftr (aget st (i - 6)%nat) 8)) in
  let y_3 := (N.shiftr (aget st (i - 5)%nat) 8) in
  let st := aset st i (w32 (N.lxor (aget st i) (N.lxor (N.lxor (N.lxor x_0 b_0) d_0) y_0))) in
  let st := aset st (i + 1)%nat (w32 (N.lxor (aget st (i + 1)%nat) (N.lxor (N.lxor (N.lxor x_1 b_1) d_1) y_1))) in
  let st := aset st (i + 2)%nat (w32 (N.lxor (aget st (i + 2)%nat) (N.lxor (N.lxor (N.lxor x_2 b_2) d_2) y_2))) in
  let st := aset st (i + 3)%nat (w32 (N.lxor (aget st (i + 3)%nat) (N.lxor (N.lxor (N.lxor x_3 b_3) d_3) y_3))) in
  st.

(** sfmt.py:97-120. *)
Definition sfmt_py_loop2 (i : nat) (st : list N) : list N :=
  let x_0 := (N.shiftl (aget st i) 8) in
  let x_1 := (N.lor (N.shiftl (aget st (i + 1)%nat) 8) (N.shiftr (aget st i) 24)) in
  let x_2 := (N.lor (N.shiftl (aget st (i + 2)%nat) 8) (N.shiftr (aget st (i + 1)%nat) 24)) in
  let x_3 := (N.lor (N.shiftl (aget st (i + 3)%nat) 8) (N.shiftr (aget st (i + 2)%nat) 24)) in
  let b_0 := (N.land (N.shiftr (aget st (i - 136)%nat) 11) 0xDFFFFFEF) in
  let b_1 := (N.land (N.shiftr (aget st (i - 135)%nat) 11) 0xDDFECB7F) in
  let b_2 := (N.land (N.shiftr (aget st (i - 134)%nat) 11) 0xBFFAFFFF) in
  let b_3 := (N.land (N.shiftr (aget st (i - 133)%nat) 11) 0xBFFFFFF6) in
  let d_0 := (N.shiftl (aget st (i - 4)%nat) 18) in
  let d_1 := (N.shiftl (aget st (i - 3)%nat) 18) in
  let d_2 := (N.shiftl (aget st (i - 2)%nat) 18) in
  let d_3 := (N.shiftl (aget st (i - 1)%nat) 18) in
  let y_0 := (N.lor (N.shiftl (aget st (i - 7)%nat) 24) (N.shiftr (aget st (i - 8)%nat) 8)) in
  let y_1 := (N.lor (N.shiftl (aget st (i - 6)%nat) 24) (N.shiftr (aget st (i - 7)%nat) 8)) in
  let y_2 := (N.lor (N.shiftl (aget st (i - 5)%nat) 24) (N.shiftr (aget st (i - 6)%nat) 8)) in
  let y_3 := (N.shiftr (aget st (i - 5)%nat) 8) in
  let st := aset st i (w32 (N.lxor (aget st i) (N.lxor (N.lxor (N.lxor x_0 b_0) d_0) y_0))) in
  let st := aset st (i + 1)%nat (w32 (N.lxor (aget st (i + 1)%nat) (N.lxor (N.lxor (N.lxor x_1 b_1) d_1) y_1))) in
  let st := aset st (i + 2)%nat (w32 (N.lxor (aget st (i + 2)%nat) (N.lxor (N.lxor (N.lxor x_2 b_2) d_2) y_2))) in
  let st := aset st (i + 3)%nat (w32 (N.lxor (aget st (i + 3)%nat) (N.lxor (N.lxor (N.lxor x_3 b_3) d_3) y_3))) in
  st.

(** sfmt.py:13-120, [sfmt_shuffle]: [for i in range(8, 136, 4)] is 32 rounds,
    [for i in range(136, 624, 4)] is 122 rounds. *)
Definition sfmt_shuffle_py (st : list N) : list N :=
  let st := sfmt_py_first st in
  let st := sfmt_py_second st in
  let st := for_range 32 0 (fun k st => sfmt_py_loop1 (8 + 4 * k) st) st in
  for_range 122 0 (fun k st => sfmt_py_loop2 (136 + 4 * k) st) st.

(** * The LLVM IR shuffle (used under numba), sfmt.py:123-257.
    Memory is the list of 32-bit words; vectors are lists of lanes, bytes in
    little-endian order. *)

(** load and store of a <4 x i32> at word index [i] (sfmt.py:193-208, 221). *)
Definition vload (st : list N) (i : nat) : list N :=
  [aget st i; aget st (i + 1); aget st (i + 2); aget st (i + 3)]%nat.
Definition vstore (st : list N) (i : nat) (v : list N) : list N :=
  let st := aset st i (nth 0 v 0) in
  let st := aset st (i + 1)%nat (nth 1 v 0) in
  let st := aset st (i + 2)%nat (nth 2 v 0) in
  aset st (i + 3)%nat (nth 3 v 0).

(** The bitcasts between <4 x i32> and <16 x i8> (sfmt.py:176, 180, 184-185). *)
Definition word_bytes (w : N) : list N := [w mod 256; w / 2^8 mod 256; w / 2^16 mod 256; w / 2^24 mod 256].
Definition vec_bytes (v : list N) : list N := flat_map word_bytes v.
Definition byte_word (b : list N) (i : nat) : N :=
  nth i b 0 + 2^8 * nth (i + 1) b 0 + 2^16 * nth (i + 2) b 0 + 2^24 * nth (i + 3) b 0.
Definition bytes_vec (b : list N) : list N :=
  [byte_word b 0; byte_word b 4; byte_word b 8; byte_word b 12].

(** shufflevector (sfmt.py:181-183). *)
Definition shuffle_vector (v w : list N) (mask : list nat) : list N :=
  map (fun i => nth i (v ++ w) 0) mask.
Definition VI8X16_ZERO : list N := repeat 0 16.
(** sfmt.py:140-145 *)
Definition SHIFT_LEFT_MASK : list nat := [16; 0; 1; 2; 3; 4; 5; 6; 7; 8; 9; 10; 11; 12; 13; 14]%nat.
Definition SHIFT_RIGHT_MASK : list nat := [1; 2; 3; 4; 5; 6; 7; 8; 9; 10; 11; 12; 13; 14; 15; 16]%nat.
(** sfmt.py:139 *)
Definition VMASK : list N := [0xDFFFFFEF; 0xDDFECB7F; 0xBFFAFFFF; 0xBFFFFFF6].

(** sfmt.py:179-185, [shift_bytes]. *)
Definition shift_bytes (v : list N) (mask : list nat) : list N :=
  bytes_vec (shuffle_vector (vec_bytes v) VI8X16_ZERO mask).

(** Lane-wise instructions. *)
Definition vmap2 (f : N -> N -> N) (v w : list N) : list N :=
  map (fun '(a, b) => f a b) (combine v w).
Definition vxor := vmap2 N.lxor.
Definition vlshr (k : N) (v : list N) : list N := map (fun a => N.shiftr a k) v.
Definition vshl (k : N) (v : list N) : list N := map (fun a => shl32 a k) v.

(** i64 addition of a signed constant (sfmt.py:189-191, 223). *)
Definition add_i64 (index : N) (ofs : Z) : N := w64 (index + Z.to_N (ofs mod 2^64)).

(** sfmt.py:187-226, [mm_recursion]; returns the memory and the new index. *)
Definition mm_recursion (ofs : Z * Z * Z) (s : list N * N) : list N * N :=
  let '(st, index) := s in
  let '(ofs_b, ofs_c, ofs_d) := ofs in
  let a := N.to_nat index in
  let b := N.to_nat (add_i64 index ofs_b) in
  let c := N.to_nat (add_i64 index ofs_c) in
  let d := N.to_nat (add_i64 index ofs_d) in
  let vec_a := vload st a in
  let vec_b := vload st b in
  let vec_d := vload st d in
  let vec_x := shift_bytes (vload st a) SHIFT_LEFT_MASK in
  let vec_y := shift_bytes (vload st c) SHIFT_RIGHT_MASK in
  let vec_b1 := vmap2 N.land (vlshr 11 vec_b) VMASK in
  let vec_d1 := vshl 18 vec_d in
  let vec_a := vxor (vxor (vxor (vxor vec_a vec_x) vec_b1) vec_y) vec_d1 in
  (vstore st a vec_a, w64 (index + 4)).

(** sfmt.py:228-245, [loop_mm_recursion]: run the block, leave when the index equals
    [last]. The fuel bounds the number of rounds. *)
Fixpoint loop_mm_recursion (fuel : nat) (ofs : Z * Z * Z) (last : N) (s : list N * N) : res (list N * N) :=
  match fuel with
  | O => Raise OutOfFuel
  | S fuel =>
      let s := mm_recursion ofs s in
      if snd s =? last then Ok s else loop_mm_recursion fuel ofs last s
  end.

(** sfmt.py:247-257: the emitted code. *)
Definition sfmt_shuffle_ir (st : list N) : res (list N) :=
  let s := mm_recursion (488, 616, 620)%Z (st, 0) in
  let s := mm_recursion (488, 616, -4)%Z s in
  rbind (loop_mm_recursion 624 (488, -8, -4)%Z 136 s) (fun s =>
  rmap fst (loop_mm_recursion 624 (-136, -8, -4)%Z 624 s)).

(** * The class, sfmt.py:263-328 *)
Record sfmt := mkSFMT { sfmt_state : list N; sfmt_index : N }.

(** sfmt.py:284-286 *)
Definition sfmt_init_word (seed : N) (i : nat) : N :=
  w32 (0x6C078965 * N.lxor seed (N.shiftr seed 30) + N.of_nat i).

(** sfmt.py:290-294: the folding of the parity word. *)
Definition sfmt_fold (inner : N) : N :=
  let inner := N.lxor inner (N.shiftr inner 16) in
  let inner := N.lxor inner (N.shiftr inner 8) in
  let inner := N.lxor inner (N.shiftr inner 4) in
  let inner := N.lxor inner (N.shiftr inner 2) in
  N.lxor inner (N.shiftr inner 1).

(** sfmt.py:276-296, [re_init]. [~inner & 1] is the complement of bit 0. *)
Definition sfmt_re_init (self : sfmt) (seed : N) : sfmt :=
  let seed := w32 seed in
  let st := aset (sfmt_state self) 0 seed in
  let inner := N.land seed 1 in
  let '(_, st) :=
    for_range 623 1
      (fun i '(seed, st) =>
         let seed := sfmt_init_word seed i in (seed, aset st i seed))
      (seed, st) in
  let inner := N.lxor inner (N.land (aget st 3) 0x13C9E684) in
  let inner := sfmt_fold inner in
  let st := aset st 0 (N.lxor (aget st 0) (N.land (not32 inner) 1)) in
  mkSFMT st 624.

(** sfmt.py:270-274, [__init__]; the words that np.empty left are a parameter. *)
Definition sfmt_new (junk : list N) (seed : N) : sfmt :=
  sfmt_re_init (mkSFMT junk 624) seed.

(** sfmt.py:318-324, [shuffle]: the Python function, or the IR under numba. *)
Definition sfmt_shuffle (m : mode) (self : sfmt) : res sfmt :=
  rmap (fun st => mkSFMT st 0)
    (match m with
     | NumPy => Ok (sfmt_shuffle_py (sfmt_state self))
     | Numba => sfmt_shuffle_ir (sfmt_state self)
     end).

(** sfmt.py:307-316, [next]. *)
Definition sfmt_next (m : mode) (self : sfmt) : res (sfmt * N) :=
  rmap (fun self =>
    let low := aget (sfmt_state self) (N.to_nat (sfmt_index self)) in
    let index := w16 (sfmt_index self + 1) in
    let high := aget (sfmt_state self) (N.to_nat index) in
    let index := w16 (index + 1) in
    (mkSFMT (sfmt_state self) index, N.lor low (shl64 high 32)))
  (if sfmt_index self =? 624 then sfmt_shuffle m self else Ok self).

(** sfmt.py:302-304: the loop of [advance]; a failing shuffle ends it. *)
Fixpoint sfmt_adv_loop (m : mode) (fuel : nat) (self : sfmt) (adv : N) : res (sfmt * N) :=
  if 624 <=? adv then
    match fuel with
    | O => Raise OutOfFuel
    | S fuel => rbind (sfmt_shuffle m self) (fun self => sfmt_adv_loop m fuel self (adv - 624))
    end
  else Ok (self, adv).

(** sfmt.py:298-305, [advance]. Without numba [adv * 2] and the sum wrap at 32 bits;
    under numba they are held in 64 bits. *)
Definition sfmt_advance (m : mode) (self : sfmt) (adv : N) : res sfmt :=
  let adv := w32 adv in
  let adv := match m with
             | NumPy => w32 (w32 (adv * 2) + sfmt_index self)
             | Numba => w64 (w64 (adv * 2) + sfmt_index self)
             end in
  rmap (fun '(self, adv) => mkSFMT (sfmt_state self) (w16 adv))
    (sfmt_adv_loop m (N.to_nat (adv / 624)) self adv).

(** sfmt.py:326-328, [next_rand]. *)
Definition sfmt_next_rand (m : mode) (self : sfmt) (maximum : N) : res (sfmt * res N) :=
  rmap (fun '(self, r) => (self, umod m r (w64 maximum))) (sfmt_next m self).

(** The public methods as operations on one object. An exception out of shuffle
    (there is none, see C15) would leave the object as it was. *)
Inductive sfmt_op :=
| SNext | SAdvance (adv : N) | SRand (maximum : N) | SReInit (seed : N) | SShuffle.

Definition sfmt_call (m : mode) (self : sfmt) (op : sfmt_op) : sfmt * outcome :=
  match op with
  | SNext =>
      match sfmt_next m self with Ok (self, r) => (self, OVal r) | Raise e => (self, OExn e) end
  | SAdvance adv =>
      match sfmt_advance m self adv with Ok self => (self, ONone) | Raise e => (self, OExn e) end
  | SRand mx =>
      match sfmt_next_rand m self mx with Ok (self, r) => (self, of_res r) | Raise e => (self, OExn e) end
  | SReInit seed => (sfmt_re_init self seed, ONone)
  | SShuffle =>
      match sfmt_shuffle m self with Ok self => (self, ONone) | Raise e => (self, OExn e) end
  end.

Fixpoint sfmt_calls (m : mode) (self : sfmt) (ops : list sfmt_op) : sfmt * list outcome :=
  match ops with
  | [] => (self, [])
  | op :: t => let '(self, o) := sfmt_call m self op in
               let '(self, os) := sfmt_calls m self t in (self, o :: os)
  end.
