(** Which settings of a Generation 5 console are told apart by the block that is hashed. *)
From Coq Require Import NArith List Bool.
From Verif Require Import Spec.SHA1Spec.
Import ListNotations.
Open Scope N_scope.

Definition same_version (v v' : version) : bool := version_value v =? version_value v'.
Definition same_language (l l' : language) : bool := language_value l =? language_value l'.
Definition one_of (ls : list language) (l : language) : bool := existsb (same_language l) ls.
Definition first_pair (v : version) : bool := match v with Black | White => true | _ => false end.
Definition plain_ds (c : console) : bool := match c with DSLite => true | _ => false end.

(** The games with the same addresses: Black and White of one language, in some languages; on the
    DSi and the 3DS also those of Japan and of Korea. *)
Definition same_memory (s s' : setup) : bool :=
  let l := s_language s in let l' := s_language s' in
  Bool.eqb (plain_ds (s_console s)) (plain_ds (s_console s')) &&
  (same_version (s_version s) (s_version s') && same_language l l' ||
   first_pair (s_version s) && first_pair (s_version s') &&
   if plain_ds (s_console s) then same_language l l' && one_of [Korean; Spanish] l
   else same_language l l' && one_of [German; Italian; Japanese; Korean; Spanish] l ||
        one_of [Japanese; Korean] l && one_of [Japanese; Korean] l').

(** What is seen of the MAC address, the frame and the graphics state: the frame is added bit
    by bit to the sixth byte of the address and the state to the third. *)
Definition mac_seen (s : setup) : N := N.lxor (s_mac s) (s_vframe s * 2^40 + s_gx s * 2^16).

(** Clocks that show the same bytes: the 3DS does not mark the hours from noon on. *)
Definition same_clock (c c' : console) (t : time) : bool :=
  (console_value c =? console_value c') ||
  negb (plain_ds c) && negb (plain_ds c') && (let '(h, _, _) := t in h <? 12).

Definition same_settings (s : setup) (d : date) (t : time) (tm : timer) (b : N)
    (s' : setup) (d' : date) (t' : time) (tm' : timer) (b' : N) : Prop :=
  same_memory s s' = true /\ mac_seen s = mac_seen s' /\ s_soft_reset s = s_soft_reset s' /\
  d = d' /\ t = t' /\ same_clock (s_console s) (s_console s') t = true /\ tm = tm' /\ b = b'.
