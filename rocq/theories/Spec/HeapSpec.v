(** States as values that share nothing. *)
From Coq Require Import NArith List.
From Verif Require Import Base.Word Model.Gen3State Model.Gen3Update Model.SharedList Model.Heap3.
Import ListNotations.
Open Scope N_scope.

Definition set_arrays (ivs stats : list N) (st : gstate) : gstate :=
  {| g_advance := g_advance st; g_pid := g_pid st; g_species := g_species st; g_form := g_form st;
     g_stats := stats; g_ability_index := g_ability_index st; g_ivs := ivs; g_ability := g_ability st;
     g_characteristic := g_characteristic st; g_gender := g_gender st; g_hidden_power := g_hidden_power st;
     g_hidden_power_strength := g_hidden_power_strength st; g_level := g_level st; g_nature := g_nature st;
     g_shiny := g_shiny st |}.

(** An assignment to other attributes neither reads nor writes the arrays. *)
Definition spares_arrays (a : act) : Prop :=
  match a with
  | AAttr _ f => forall ivs stats st, f (set_arrays ivs stats st) = set_arrays ivs stats (f st)
  | _ => True
  end.

(** One action on a list of independent values. *)
Definition act_v (m : mode) (sts : list gstate) (a : act) : res (list gstate) :=
  let change k (f : gstate -> res gstate) :=
    match nth_error sts k with None => Ok sts | Some st => rbind (f st) (fun st => Ok (put sts k st)) end in
  match a with
  | ASetIv k i v => change k (fun st => Ok (set_arrays (aset (g_ivs st) i v) (g_stats st) st))
  | ASetStat k i v => change k (fun st => Ok (set_arrays (g_ivs st) (aset (g_stats st) i v) st))
  | AAttr k f => change k (fun st => Ok (f st))
  | AUpdate k info => change k (fun st => update_stats m st info)
  end.
Fixpoint acts_v (m : mode) (sts : list gstate) (l : list act) : res (list gstate) :=
  match l with
  | [] => Ok sts
  | a :: t => rbind (act_v m sts a) (fun sts => acts_v m sts t)
  end.

(** All arrays of these objects exist and are different ones. *)
Definition refs (o : sobj) : list nat := [so_ivs o; so_stats o].
Definition separate (h : heap) (objs : list sobj) : Prop :=
  NoDup (flat_map refs objs) /\ forall r, In r (flat_map refs objs) -> (r < length h)%nat.

(** The object in a heap stands for the value. *)
Definition stands_for (s : res (heap * list sobj)) (v : res (list gstate)) : Prop :=
  match s, v with
  | Ok (h, objs), Ok sts => map (view h) objs = sts
  | Raise e, Raise e' => e = e'
  | _, _ => False
  end.
