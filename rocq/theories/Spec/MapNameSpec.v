(** What the readable name of a map is, from the identifier of the map. ASCII only. *)
From Coq Require Import NArith Ascii String List.
Import ListNotations.
Open Scope list_scope.
Open Scope N_scope.

Fixpoint every (P : ascii -> Prop) (s : string) : Prop :=
  match s with EmptyString => True | String c s' => P c /\ every P s' end.
(** The first character, if there is one. *)
Definition starts (P : ascii -> Prop) (s : string) : Prop :=
  match s with EmptyString => False | String c _ => P c end.

Definition digit (c : ascii) : Prop := 48 <= N_of_ascii c <= 57.
Definition capital (c : ascii) : Prop := 65 <= N_of_ascii c <= 90.
Definition small (c : ascii) : Prop := 97 <= N_of_ascii c <= 122.
(** White space of Python, and the underscore. *)
Definition separator (c : ascii) : Prop :=
  9 <= N_of_ascii c <= 13 \/ 28 <= N_of_ascii c <= 32 \/ c = "_"%char.

(** The same letter as a capital, as a small letter. *)
Definition capital_of (c d : ascii) : Prop :=
  (small c /\ N_of_ascii c = N_of_ascii d + 32) \/ (~ small c /\ d = c).
Definition small_of (c d : ascii) : Prop :=
  (capital c /\ N_of_ascii d = N_of_ascii c + 32) \/ (~ capital c /\ d = c).
Inductive small_text : string -> string -> Prop :=
| st_nil : small_text "" ""
| st_cons c d s t : small_of c d -> small_text s t -> small_text (String c s) (String d t).

(** The identifier without each "MAP_", found from the left. *)
Inductive without_map : string -> string -> Prop :=
| wm_nil : without_map "" ""
| wm_hit s t : without_map s t -> without_map ("MAP_" ++ s) t
| wm_miss c s t : (forall r, String c s <> ("MAP_" ++ r)%string) ->
    without_map s t -> without_map (String c s) (String c t).

(** The words between separators. *)
Inductive words : string -> list string -> Prop :=
| w_nil : words "" []
| w_sep c s ws : separator c -> words s ws -> words (String c s) ws
| w_word w s ws : w <> ""%string -> every (fun c => ~ separator c) w ->
    s = ""%string \/ starts separator s -> words s ws -> words (w ++ s) (w :: ws).

(** [d] is the number that stands after [name], in small or capital letters. *)
Definition number_after (name d w : string) : Prop :=
  exists a r, w = (a ++ d ++ r)%string /\ small_text a name /\
    d <> ""%string /\ every digit d /\ ~ starts digit r.
(** B1F, 1F and 1R, and whatever follows. *)
Definition floor_label (w : string) : Prop :=
  exists d r, d <> ""%string /\ every digit d /\
    (w = ("B" ++ d ++ "F" ++ r)%string \/ w = (d ++ "F" ++ r)%string \/ w = (d ++ "R" ++ r)%string).

Inductive readable : string -> string -> Prop :=
| r_route d w : number_after "route" d w -> readable w ("Route " ++ d)
| r_room d w : number_after "room" d w -> readable w ("Room " ++ d)
| r_floor w : floor_label w -> readable w w
| r_other c d s t :
    (forall n, ~ number_after "route" n (String c s)) ->
    (forall n, ~ number_after "room" n (String c s)) -> ~ floor_label (String c s) ->
    capital_of c d -> small_text s t -> readable (String c s) (String d t).

Definition map_name (id name : string) : Prop :=
  exists t ws rs, without_map id t /\ words t ws /\ Forall2 readable ws rs /\
    name = String.concat " " rs.
