(** Model of numba_pokemon_prngs/data/util.py (record dtypes) and
    numba_pokemon_prngs/data/personal/__init__.py (loading and choosing tables). *)
From Coq Require Import NArith Arith String List Bool.
From Verif Require Import Base.Word.
Import ListNotations.
Open Scope N_scope.

(** data/util.py:24-25,55-62: the field types that personal_info.py uses; [Bytes n] is
    [unused_bytes(n)]. *)
Inductive dtype := U8 | U16 | Bytes (n : nat).
Definition itemsize (d : dtype) : nat :=
  match d with U8 => 1 | U16 => 2 | Bytes n => n end%nat.

(** data/util.py:31-52, [dtype_dataclass]: the dtype has the fields in the order of the
    class body. [np.dtype] of a list is packed: each field starts where the previous one
    ends. *)
Definition layout := list (string * dtype).
Definition record_size (l : layout) : nat := fold_right (fun f n => itemsize (snd f) + n)%nat 0%nat l.
Fixpoint lookup (l : layout) (name : string) (offset : nat) : option (nat * dtype) :=
  match l with
  | [] => None
  | (n, d) :: rest =>
      if String.eqb n name then Some (offset, d) else lookup rest name (offset + itemsize d)%nat
  end.

(** Values of fields. *)
Inductive value := VInt (n : N) | VBytes (l : list N).
Definition read (d : dtype) (b : list N) : value :=
  match d with
  | U8 => VInt (nth 0 b 0)
  | U16 => VInt (nth 0 b 0 + 256 * nth 1 b 0)
  | Bytes n => VBytes (firstn n b)
  end.

(** Attribute access on a record of the array (np.recarray). *)
Definition get_field (l : layout) (record : list N) (name : string) : res value :=
  match lookup l name 0 with
  | None => Raise AttributeError
  | Some (o, d) => Ok (read d (skipn o record))
  end.

(** data/personal/__init__.py:27-35, [load_personal]: [np.fromfile] reads as many whole
    records as the file has and ignores the rest. [fuel] is at least the file size. *)
Fixpoint records (fuel : nat) (size : nat) (b : list N) : list (list N) :=
  match fuel with
  | O => []
  | S f =>
      if (size <=? length b)%nat then firstn size b :: records f size (skipn size b) else []
  end.
Definition load_personal (l : layout) (b : list N) : list (list N) :=
  records (length b) (record_size l) b.

(** enums/game.py:10-38. DIAMOND and PLATINUM have the same value. *)
Definition RUBY := 2^0.            Definition SAPPHIRE := 2^1.
Definition EMERALD := 2^2.         Definition FIRE_RED := 2^3.
Definition LEAF_GREEN := 2^4.      Definition GALES := 2^5.
Definition COLOSSEUM := 2^6.       Definition DIAMOND := 2^9.
Definition PEARL := 2^8.           Definition PLATINUM := 2^9.
Definition HEART_GOLD := 2^10.     Definition SOUL_SILVER := 2^11.
Definition BLACK := 2^12.          Definition WHITE := 2^13.
Definition BLACK2 := 2^14.         Definition WHITE2 := 2^15.
Definition X := 2^16.              Definition Y := 2^17.
Definition OMEGA_RUBY := 2^18.     Definition ALPHA_SAPPHIRE := 2^19.
Definition SUN := 2^20.            Definition MOON := 2^21.
Definition ULTRA_SUN := 2^22.      Definition ULTRA_MOON := 2^23.
Definition SWORD := 2^24.          Definition SHIELD := 2^25.
Definition BRILLIANT_DIAMOND := 2^26. Definition SHINING_PEARL := 2^27.
Definition LEGENDS_ARCEUS := 2^28.

(** data/personal/__init__.py:44-65: the loaded tables, named as the files in
    resources/bin/personal. personal_hgss is there but never loaded. *)
Inductive table_name :=
  | T_RS | T_E | T_FR | T_LG | T_DP | T_PT | T_HGSS | T_BW | T_B2W2 | T_XY | T_AO | T_SM | T_UU
  | T_SWSH | T_BDSP | T_LA.

(** data/personal/__init__.py:80-112, [get_info_table]. *)
Definition get_info_table (game : N) : res table_name :=
  let has m := negb (N.land game m =? 0) in
  if has (N.lor RUBY SAPPHIRE) then Ok T_RS
  else if has EMERALD then Ok T_E
  else if has FIRE_RED then Ok T_FR
  else if has LEAF_GREEN then Ok T_LG
  else if has (N.lor DIAMOND PEARL) then Ok T_DP
  else if has (N.lor BLACK WHITE) then Ok T_BW
  else if has (N.lor BLACK2 WHITE2) then Ok T_B2W2
  else if has (N.lor X Y) then Ok T_XY
  else if has (N.lor OMEGA_RUBY ALPHA_SAPPHIRE) then Ok T_AO
  else if has (N.lor SUN MOON) then Ok T_SM
  else if has (N.lor ULTRA_SUN ULTRA_MOON) then Ok T_UU
  else if has (N.lor SWORD SHIELD) then Ok T_SWSH
  else if has (N.lor BRILLIANT_DIAMOND SHINING_PEARL) then Ok T_BDSP
  else if has LEGENDS_ARCEUS then Ok T_LA
  else Raise NotImplementedError.

(** data/personal/__init__.py:70-77, [get_info_table_3]. *)
Definition get_info_table_3_name (game : N) : table_name :=
  let has m := negb (N.land game m =? 0) in
  if has (N.lor RUBY SAPPHIRE) then T_RS
  else if has EMERALD then T_E
  else if has FIRE_RED then T_FR else T_LG.

(** The record as the generation 3 generator sees it: the attributes of an element of a
    table loaded with PersonalInfo3 (personal_info.py:79-105). *)
Definition int_of (v : res value) : res N :=
  match v with Ok (VInt n) => Ok n | Ok (VBytes _) => Raise TypeError | Raise e => Raise e end.
