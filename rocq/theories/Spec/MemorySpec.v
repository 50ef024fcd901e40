(** Setting up a SHA1 object by calls of its setters, in any order and number. *)
From Coq Require Import NArith List.
From Verif Require Import Base.Word Model.SHA1Class.
Import ListNotations.
Open Scope N_scope.

Inductive setting :=
| Timer (timer0 vcount : N)
| Date (year month day day_of_week : N)
| Time (hour minute second : N)
| Button (button : N).
Definition set (self : sha1) (s : setting) : res sha1 :=
  match s with
  | Timer t v => Ok (sha1_set_timer0 self t v)
  | Date y m d w => sha1_set_date self y m d w
  | Time h m s => sha1_set_time self h m s
  | Button b => Ok (sha1_set_button self b)
  end.
Fixpoint set_all (self : sha1) (l : list setting) : res sha1 :=
  match l with [] => Ok self | s :: l => rbind (set self s) (fun self => set_all self l) end.
(** The word of the block that a setter is for. *)
Definition word (s : setting) : nat :=
  match s with Timer _ _ => 5 | Date _ _ _ _ => 8 | Time _ _ _ => 9 | Button _ => 12 end%nat.
Definition words : list nat := [5; 8; 9; 12]%nat.
(** Some setters, precompute, more setters, hash_seed. *)
Definition seed_after (self : sha1) (before after : list setting) : res N :=
  rbind (set_all self before) (fun self =>
  let '(self, alpha) := sha1_precompute self in
  rbind (set_all self after) (fun self => Ok (snd (sha1_hash_seed self alpha)))).
