(** Counting. *)
From Coq Require Import NArith.
From Verif Require Import Base.Word.
Open Scope N_scope.

(** The number of i below n that satisfy [p]. *)
Definition how_many (p : N -> bool) (n : N) : N :=
  N.recursion 0 (fun i count => if p i then N.succ count else count) n.

(** How many numbers below n have remainder [v], quotient [v], or v / m as the integer part
    of their share n / m of the range: the distributions of bounded rands. *)
Definition with_remainder (n m v : N) : N := n / m + (if v <? n mod m then 1 else 0).
Definition with_quotient (n q v : N) : N := N.min n (q * (v + 1)) - N.min n (q * v).
Definition ceil_div (a b : N) : N := (a + (b - 1)) / b.
Definition with_share (n m v : N) : N := ceil_div (n * (v + 1)) m - ceil_div (n * v) m.

(** Whether a call returned [v]. *)
Definition res_eqb (r : res N) (v : N) : bool := match r with Ok x => x =? v | Raise _ => false end.
