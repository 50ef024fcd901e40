(** Dealing out the outputs of one generator. An account says how many outputs are gone
    and, for every list, which of them it holds: [held j] is the number of the output in
    place j, the oldest in place 0. *)
From Coq Require Import NArith List.
From Verif Require Import Base.Word Model.RNGList Model.SharedList.
Import ListNotations.
Open Scope N_scope.

Record holding := mk_holding { h_cast : N -> N; h_size : N; held : N -> N; h_cursor : N }.
Definition account := (N * list holding)%type.

(** Drop the n oldest and take the next n outputs, [gone] of which have been used. *)
Definition draw (gone n : N) (h : holding) : holding :=
  mk_holding (h_cast h) (h_size h)
    (fun j => if j + n <? h_size h then held h (j + n) else gone + (j + n - h_size h)) 0.

Definition deal_list (out : N -> N) (gone : N) (h : holding) (op : rl_op) : N * holding * outcome :=
  match op with
  | RReInit => (gone + h_size h, draw gone (h_size h) h, ONone)
  | RAdvanceStates n =>
      if n mod 2^32 =? 0 then (gone, h, ONone) else (gone + n mod 2^32, draw gone (n mod 2^32) h, ONone)
  | RAdvanceState => (gone + 1, draw gone 1 h, ONone)
  | RAdvance n => (gone, mk_holding (h_cast h) (h_size h) (held h) ((h_cursor h + n mod 2^32) mod h_size h), ONone)
  | RGet => (gone, mk_holding (h_cast h) (h_size h) (held h) ((h_cursor h + 1) mod h_size h),
             OVal (h_cast h (out (held h (h_cursor h)))))
  end.
Definition deal (out : N -> N) (a : account) (op : sh_op) : account * outcome :=
  let '(gone, hs) := a in
  match op with
  | ShNext => ((gone + 1, hs), OVal (out gone))
  | ShNew cast size _ => ((gone + size, hs ++ [mk_holding cast size (fun j => gone + j) 0]), ONone)
  | ShCall k op =>
      match nth_error hs k with
      | None => (a, ONone)
      | Some h => let '(gone, h, o) := deal_list out gone h op in ((gone, put hs k h), o)
      end
  end.
Fixpoint deals (out : N -> N) (a : account) (ops : list sh_op) : account * list outcome :=
  match ops with
  | [] => (a, [])
  | op :: t => let '(a, o) := deal out a op in let '(a, os) := deals out a t in (a, o :: os)
  end.

(** Sizes that the class accepts and the array that np.empty makes (rng_list.py:41-43, 67). *)
Definition built_well (m : mode) (op : sh_op) : Prop :=
  match op with
  | ShNew _ size junk => (exists k, size = 2^k) /\ N.of_nat (length junk) = size /\ (m = Numba -> size <= 2^16)
  | _ => True
  end.

(** Nothing is held twice, everything held is gone from the generator, and each list
    holds its outputs in the order in which they came. *)
Definition no_output_twice (a : account) : Prop :=
  let '(gone, hs) := a in
  forall k1 h1 j1, nth_error hs k1 = Some h1 -> j1 < h_size h1 ->
    held h1 j1 < gone /\
    forall k2 h2 j2, nth_error hs k2 = Some h2 -> j2 < h_size h2 ->
      (held h1 j1 = held h2 j2 -> k1 = k2 /\ j1 = j2) /\
      (k1 = k2 -> j1 < j2 -> held h1 j1 < held h2 j2).
