(** The parts of the package where Python ints meet NumPy scalars outside gen3/state.py, under
    NumPy 2 and without numba: the Python shuffle of mersenne_twister/sfmt.py and the
    constructor of gen3/wild_generator_3.py. *)
From Coq Require Import NArith List Bool.
From Verif Require Import Base.Word Model.Scalars Model.NumPy2 Model.Gen3State Model.Gen3Area Model.Gen3Wild.
Import ListNotations.
Open Scope N_scope.

(** * The Python shuffle, sfmt.py:13-120, under NumPy 2.
    As in Model/SFMT.v (tools/gen_sfmt.py), except that [state[i] << 8] is a uint32: the
    literal takes the type of the word, and the bits shifted out are lost at once. *)

(** sfmt.py:20-43. *)
Definition sfmt_py2_first (st : list N) : list N :=
  let x_0 := (shl32 (aget st 0%nat) 8) in
  let x_1 := (N.lor (shl32 (aget st 1%nat) 8) (N.shiftr (aget st 0%nat) 24)) in
  let x_2 := (N.lor (shl32 (aget st 2%nat) 8) (N.shiftr (aget st 1%nat) 24)) in
  let x_3 := (N.lor (shl32 (aget st 3%nat) 8) (N.shiftr (aget st 2%nat) 24)) in
  let y_0 := (N.lor (shl32 (aget st 617%nat) 24) (N.shiftr (aget st 616%nat) 8)) in
  let y_1 := (N.lor (shl32 (aget st 618%nat) 24) (N.shiftr (aget st 617%nat) 8)) in
  let y_2 := (N.lor (shl32 (aget st 619%nat) 24) (N.shiftr (aget st 618%nat) 8)) in
  let y_3 := (N.shiftr (aget st 619%nat) 8) in
  let b_0 := (N.land (N.shiftr (aget st 488%nat) 11) 0xDFFFFFEF) in
  let b_1 := (N.land (N.shiftr (aget st 489%nat) 11) 0xDDFECB7F) in
  let b_2 := (N.land (N.shiftr (aget st 490%nat) 11) 0xBFFAFFFF) in
  let b_3 := (N.land (N.shiftr (aget st 491%nat) 11) 0xBFFFFFF6) in
  let d_0 := (shl32 (aget st 620%nat) 18) in
  let d_1 := (shl32 (aget st 621%nat) 18) in
  let d_2 := (shl32 (aget st 622%nat) 18) in
  let d_3 := (shl32 (aget st 623%nat) 18) in
  let st := aset st 0%nat (w32 (N.lxor (aget st 0%nat) (N.lxor (N.lxor (N.lxor x_0 y_0) b_0) d_0))) in
  let st := aset st 1%nat (w32 (N.lxor (aget st 1%nat) (N.lxor (N.lxor (N.lxor x_1 y_1) b_1) d_1))) in
  let st := aset st 2%nat (w32 (N.lxor (aget st 2%nat) (N.lxor (N.lxor (N.lxor x_2 y_2) b_2) d_2))) in
  let st := aset st 3%nat (w32 (N.lxor (aget st 3%nat) (N.lxor (N.lxor (N.lxor x_3 y_3) b_3) d_3))) in
  st.

(** sfmt.py:45-68. *)
Definition sfmt_py2_second (st : list N) : list N :=
  let x_0 := (shl32 (aget st 4%nat) 8) in
  let x_1 := (N.lor (shl32 (aget st 5%nat) 8) (N.shiftr (aget st 4%nat) 24)) in
  let x_2 := (N.lor (shl32 (aget st 6%nat) 8) (N.shiftr (aget st 5%nat) 24)) in
  let x_3 := (N.lor (shl32 (aget st 7%nat) 8) (N.shiftr (aget st 6%nat) 24)) in
  let y_0 := (N.lor (shl32 (aget st 621%nat) 24) (N.shiftr (aget st 620%nat) 8)) in
  let y_1 := (N.lor (shl32 (aget st 622%nat) 24) (N.shiftr (aget st 621%nat) 8)) in
  let y_2 := (N.lor (shl32 (aget st 623%nat) 24) (N.shiftr (aget st 622%nat) 8)) in
  let y_3 := (N.shiftr (aget st 623%nat) 8) in
  let b_0 := (N.land (N.shiftr (aget st 492%nat) 11) 0xDFFFFFEF) in
  let b_1 := (N.land (N.shiftr (aget st 493%nat) 11) 0xDDFECB7F) in
  let b_2 := (N.land (N.shiftr (aget st 494%nat) 11) 0xBFFAFFFF) in
  let b_3 := (N.land (N.shiftr (aget st 495%nat) 11) 0xBFFFFFF6) in
  let d_0 := (shl32 (aget st 0%nat) 18) in
  let d_1 := (shl32 (aget st 1%nat) 18) in
  let d_2 := (shl32 (aget st 2%nat) 18) in
  let d_3 := (shl32 (aget st 3%nat) 18) in
  let st := aset st 4%nat (w32 (N.lxor (aget st 4%nat) (N.lxor (N.lxor (N.lxor x_0 y_0) b_0) d_0))) in
  let st := aset st 5%nat (w32 (N.lxor (aget st 5%nat) (N.lxor (N.lxor (N.lxor x_1 y_1) b_1) d_1))) in
  let st := aset st 6%nat (w32 (N.lxor (aget st 6%nat) (N.lxor (N.lxor (N.lxor x_2 y_2) b_2) d_2))) in
  let st := aset st 7%nat (w32 (N.lxor (aget st 7%nat) (N.lxor (N.lxor (N.lxor x_3 y_3) b_3) d_3))) in
  st.

(** sfmt.py:71-94. *)
Definition sfmt_py2_loop1 (i : nat) (st : list N) : list N :=
  let x_0 := (shl32 (aget st i) 8) in
  let x_1 := (N.lor (shl32 (aget st (i + 1)%nat) 8) (N.shiftr (aget st i) 24)) in
  let x_2 := (N.lor (shl32 (aget st (i + 2)%nat) 8) (N.shiftr (aget st (i + 1)%nat) 24)) in
  let x_3 := (N.lor (shl32 (aget st (i + 3)%nat) 8) (N.shiftr (aget st (i + 2)%nat) 24)) in
  let b_0 := (N.land (N.shiftr (aget st (i + 488)%nat) 11) 0xDFFFFFEF) in
  let b_1 := (N.land (N.shiftr (aget st (i + 489)%nat) 11) 0xDDFECB7F) in
  let b_2 := (N.land (N.shiftr (aget st (i + 490)%nat) 11) 0xBFFAFFFF) in
  let b_3 := (N.land (N.shiftr (aget st (i + 491)%nat) 11) 0xBFFFFFF6) in
  let d_0 := (shl32 (aget st (i - 4)%nat) 18) in
  let d_1 := (shl32 (aget st (i - 3)%nat) 18) in
  let d_2 := (shl32 (aget st (i - 2)%nat) 18) in
  let d_3 := (shl32 (aget st (i - 1)%nat) 18) in
  let y_0 := (N.lor (shl32 (aget st (i - 7)%nat) 24) (N.shiftr (aget st (i - 8)%nat) 8)) in
  let y_1 := (N.lor (shl32 (aget st (i - 6)%nat) 24) (N.shiftr (aget st (i - 7)%nat) 8)) in
  let y_2 := (N.lor (shl32 (aget st (i - 5)%nat) 24) (N.shiftr (aget st (i - 6)%nat) 8)) in
  let y_3 := (N.shiftr (aget st (i - 5)%nat) 8) in
  let st := aset st i (w32 (N.lxor (aget st i) (N.lxor (N.lxor (N.lxor x_0 b_0) d_0) y_0))) in
  let st := aset st (i + 1)%nat (w32 (N.lxor (aget st (i + 1)%nat) (N.lxor (N.lxor (N.lxor x_1 b_1) d_1) y_1))) in
  let st := aset st (i + 2)%nat (w32 (N.lxor (aget st (i + 2)%nat) (N.lxor (N.lxor (N.lxor x_2 b_2) d_2) y_2))) in
  let st := aset st (i + 3)%nat (w32 (N.lxor (aget st (i + 3)%nat) (N.lxor (N.lxor (N.lxor x_3 b_3) d_3) y_3))) in
  st.

(** sfmt.py:97-120. *)
Definition sfmt_py2_loop2 (i : nat) (st : list N) : list N :=
  let x_0 := (shl32 (aget st i) 8) in
  let x_1 := (N.lor (shl32 (aget st (i + 1)%nat) 8) (N.shiftr (aget st i) 24)) in
  let x_2 := (N.lor (shl32 (aget st (i + 2)%nat) 8) (N.shiftr (aget st (i + 1)%nat) 24)) in
  let x_3 := (N.lor (shl32 (aget st (i + 3)%nat) 8) (N.shiftr (aget st (i + 2)%nat) 24)) in
  let b_0 := (N.land (N.shiftr (aget st (i - 136)%nat) 11) 0xDFFFFFEF) in
  let b_1 := (N.land (N.shiftr (aget st (i - 135)%nat) 11) 0xDDFECB7F) in
  let b_2 := (N.land (N.shiftr (aget st (i - 134)%nat) 11) 0xBFFAFFFF) in
  let b_3 := (N.land (N.shiftr (aget st (i - 133)%nat) 11) 0xBFFFFFF6) in
  let d_0 := (shl32 (aget st (i - 4)%nat) 18) in
  let d_1 := (shl32 (aget st (i - 3)%nat) 18) in
  let d_2 := (shl32 (aget st (i - 2)%nat) 18) in
  let d_3 := (shl32 (aget st (i - 1)%nat) 18) in
  let y_0 := (N.lor (shl32 (aget st (i - 7)%nat) 24) (N.shiftr (aget st (i - 8)%nat) 8)) in
  let y_1 := (N.lor (shl32 (aget st (i - 6)%nat) 24) (N.shiftr (aget st (i - 7)%nat) 8)) in
  let y_2 := (N.lor (shl32 (aget st (i - 5)%nat) 24) (N.shiftr (aget st (i - 6)%nat) 8)) in
  let y_3 := (N.shiftr (aget st (i - 5)%nat) 8) in
  let st := aset st i (w32 (N.lxor (aget st i) (N.lxor (N.lxor (N.lxor x_0 b_0) d_0) y_0))) in
  let st := aset st (i + 1)%nat (w32 (N.lxor (aget st (i + 1)%nat) (N.lxor (N.lxor (N.lxor x_1 b_1) d_1) y_1))) in
  let st := aset st (i + 2)%nat (w32 (N.lxor (aget st (i + 2)%nat) (N.lxor (N.lxor (N.lxor x_2 b_2) d_2) y_2))) in
  let st := aset st (i + 3)%nat (w32 (N.lxor (aget st (i + 3)%nat) (N.lxor (N.lxor (N.lxor x_3 b_3) d_3) y_3))) in
  st.

(** sfmt.py:13-120, [sfmt_shuffle]: [for i in range(8, 136, 4)] is 32 rounds,
    [for i in range(136, 624, 4)] is 122 rounds. *)
Definition sfmt_shuffle_py2 (st : list N) : list N :=
  let st := sfmt_py2_first st in
  let st := sfmt_py2_second st in
  let st := for_range 32 0 (fun k st => sfmt_py2_loop1 (8 + 4 * k) st) st in
  for_range 122 0 (fun k st => sfmt_py2_loop2 (136 + 4 * k) st) st.

(** * wild_generator_3.py:30-47, [__init__], interpreted, with arguments of any kind and under
    either version. [tid ^ sid] is an operation of its own; both are of the same kind (two
    Python ints or two np.uint16). [self.game & Game.EMERALD] (line 44) meets a flag that fits. *)
Definition wild_new_np (v : numpy) (t : tables3) (method encounter lead game tid sid : scalar) : res wildgen :=
  rbind (cast v 8 method) (fun method =>
  rbind (cast v 8 encounter) (fun encounter =>
  rbind (cast v 8 game) (fun game =>
  rbind (op v N.land game (PyInt Game_EMERALD)) (fun emerald =>
  rbind (if negb (value emerald =? 0) then cast v 8 lead else cast v 8 (PyInt Lead_NONE)) (fun lead =>
  rbind (rbind (op v N.lxor tid sid) (cast v 16)) (fun tsv =>
  Ok {| w_method := value method; w_encounter := value encounter; w_game := value game;
        w_lead := value lead; w_tsv := value tsv;
        w_table := get_info_table_3 t (value game) |})))))).
