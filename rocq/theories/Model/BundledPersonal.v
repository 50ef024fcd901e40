(** data/personal/__init__.py:27-65 on the bundled files: the loaded tables. *)
From Coq Require Import NArith String List.
From Verif Require Import Base.Word Model.Personal Model.PersonalLayouts Model.PersonalData3 Model.Trie
  Model.PersDP Model.PersPT Model.PersBW Model.PersB2W2 Model.PersXY Model.PersAO Model.PersSM Model.PersUU
  Model.PersSWSH Model.PersBDSP Model.PersLA.
Import ListNotations.
Open Scope N_scope.

(** data/personal/__init__.py:44-65: the record type of each table and the contents of its
    file. personal_hgss is not loaded. *)
Definition personal_source (t : table_name) : option (layout * list N) :=
  match t with
  | T_RS => Some (PersonalInfo3, personal_rs_bytes)
  | T_E => Some (PersonalInfo3, personal_e_bytes)
  | T_FR => Some (PersonalInfo3, personal_fr_bytes)
  | T_LG => Some (PersonalInfo3, personal_lg_bytes)
  | T_DP => Some (PersonalInfo4, file_bytes dp_trie dp_size)
  | T_PT => Some (PersonalInfo4, file_bytes pt_trie pt_size)
  | T_HGSS => None
  | T_BW => Some (PersonalInfo5BW, file_bytes bw_trie bw_size)
  | T_B2W2 => Some (PersonalInfo5B2W2, file_bytes b2w2_trie b2w2_size)
  | T_XY => Some (PersonalInfo6XY, file_bytes xy_trie xy_size)
  | T_AO => Some (PersonalInfo6AO, file_bytes ao_trie ao_size)
  | T_SM => Some (PersonalInfo7, file_bytes sm_trie sm_size)
  | T_UU => Some (PersonalInfo7, file_bytes uu_trie uu_size)
  | T_SWSH => Some (PersonalInfo8SWSH, file_bytes swsh_trie swsh_size)
  | T_BDSP => Some (PersonalInfo8BDSP, file_bytes bdsp_trie bdsp_size)
  | T_LA => Some (PersonalInfo8LA, file_bytes la_trie la_size)
  end.
(** data/personal/__init__.py:27-35: the array PERSONAL_INFO_*, with its record type. *)
Definition PERSONAL_INFO (t : table_name) : option (layout * list (list N)) :=
  match personal_source t with
  | Some (l, bytes) => Some (l, load_personal l bytes)
  | None => None
  end.
(** PERSONAL_INFO_*[k].name; the module has no attribute for a table that is not loaded. *)
Definition personal_attr (t : table_name) (k : N) (name : string) : res value :=
  match PERSONAL_INFO t with
  | None => Raise AttributeError
  | Some (l, records) =>
      match nth_error records (N.to_nat k) with
      | None => Raise IndexError
      | Some r => get_field l r name
      end
  end.
