(** The contents of resources/bin/personal/personal_{rs,e,fr,lg}. *)
From Coq Require Import NArith List.
From Verif Require Import Model.Trie Model.PersRS Model.PersE Model.PersFR Model.PersLG.

Definition personal_rs_bytes : list N := file_bytes rs_trie rs_size.
Definition personal_e_bytes : list N := file_bytes e_trie e_size.
Definition personal_fr_bytes : list N := file_bytes fr_trie fr_size.
Definition personal_lg_bytes : list N := file_bytes lg_trie lg_size.
