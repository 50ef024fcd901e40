(** The names of encounter tables, as the comment at data/encounter/__init__.py:494-528
    lists them. *)
From Coq Require Import NArith String Ascii List.
Import ListNotations.
Open Scope list_scope.
Open Scope N_scope.

(** A string as its code points. *)
Definition codes (s : string) : list N := map N_of_ascii (list_ascii_of_string s).
(** A number in decimal with two digits or more. *)
Definition padded (i : N) : list N :=
  (if i <? 100 then [] else [48 + i / 100]) ++ [48 + (i / 10) mod 10; 48 + i mod 10].
Definition under : list N := codes "_".
Definition prefixes : list (list N) := map codes ["eve"; "fly"; "gmk"; "lnd"; "mas"; "oyb"; "swm"; "whl"]%string.
Definition kinds : list (list N) := map codes ["ex"; "no"; "ra"]%string.
Definition gimmicks : list (list N) := map codes ["no"; "tree"; "rock"; "crystal"; "snow"; "box"]%string.
Inductive table_name : list N -> Prop :=
| Numbered p k i : In p prefixes -> In k kinds -> i < 150 -> table_name (p ++ under ++ k ++ under ++ padded i)
| Sky area i : area < 6 -> i < 10 -> table_name (codes "sky_area" ++ [48 + area] ++ under ++ padded i)
| Event s : In s ["eve_ex_16_b"; "eve_ex_17_b"; "eve_ex_18_b"]%string -> table_name (codes s)
| Gimmick g i : In g gimmicks -> i < 100 -> table_name (codes "gmk_" ++ g ++ under ++ padded i)
| Gimmick2 g i j : In g gimmicks -> i < 100 -> j < 3 ->
    table_name (codes "gmk_" ++ g ++ under ++ padded i ++ under ++ padded j)
| Gimmick3 g i j k : In g gimmicks -> i < 100 -> j < 3 -> k < 3 ->
    table_name (codes "gmk_" ++ g ++ under ++ padded i ++ under ++ padded j ++ under ++ padded k).
