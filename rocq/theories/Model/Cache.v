(** data/encounter/__init__.py:27-51, 298-315: the pickle cache. *)
From Coq Require Import NArith Arith String List Bool DecimalString DecimalN.
From Verif Require Import Base.Word Model.FbsLA Model.EncounterLA.
Import ListNotations.
Open Scope list_scope.
Open Scope N_scope.

(** The files of the cache directory. *)
Definition fs := string -> option (list N).
Definition no_files : fs := fun _ => None.
Definition put (f : fs) (name : string) (data : list N) : fs :=
  fun n => if String.eqb n name then Some data else f n.

(** A decorated function. [K]: the arguments of a call; [V]: its results; [P]: what is
    pickled. *)
Record cached (K V P : Type) := mkCached {
  (** __init__.py:34, filename.format( *args, **kwargs). *)
  c_file : K -> res string;
  c_function : K -> res V;
  (** The functions encode and decode; the identity if they are None. *)
  c_encode : V -> P; c_decode : P -> V;
  (** pickle.dumps and pickle.loads. *)
  c_dumps : P -> list N; c_loads : list N -> res P }.
Arguments c_file {K V P}. Arguments c_function {K V P}. Arguments c_encode {K V P}.
Arguments c_decode {K V P}. Arguments c_dumps {K V P}. Arguments c_loads {K V P}.

(** Where the process stops during a call: not at all, before the file is opened for
    writing, or when [n] bytes of the pickle are in the file. Opening truncates it. *)
Inductive stop := Never | Before_open | Written (n : nat).
(** The result, if the process did not stop, the files and how often the function ran. *)
Record outcome (V : Type) := mkOutcome { o_result : option (res V); o_files : fs; o_runs : nat }.
Arguments mkOutcome {V}. Arguments o_result {V}. Arguments o_files {V}. Arguments o_runs {V}.

(** __init__.py:33-49. *)
Definition call {K V P} (c : cached K V P) (s : stop) (f : fs) (k : K) : outcome V :=
  match c_file c k with
  | Raise e => mkOutcome (Some (Raise e)) f 0
  | Ok name =>
      match f name with
      | Some (b :: data) =>
          match s with
          | Never => mkOutcome (Some (rmap (c_decode c) (c_loads c (b :: data)))) f 0
          | _ => mkOutcome None f 0
          end
      | _ =>
          match c_function c k with
          | Raise e => mkOutcome (Some (Raise e)) f 1
          | Ok v =>
              match s with
              | Never => mkOutcome (Some (Ok v)) (put f name (c_dumps c (c_encode c v))) 1
              | Before_open => mkOutcome None f 1
              | Written n => mkOutcome None (put f name (firstn n (c_dumps c (c_encode c v)))) 1
              end
          end
      end
  end.
(** A sequence of calls in one or several processes. *)
Fixpoint calls {K V P} (c : cached K V P) (f : fs) (l : list (stop * K)) : list (outcome V) :=
  match l with
  | [] => []
  | (s, k) :: l' => let o := call c s f k in o :: calls c (o_files o) l'
  end.
Fixpoint after {K V P} (c : cached K V P) (f : fs) (l : list (stop * K)) : fs :=
  match l with [] => f | (s, k) :: l' => after c (o_files (call c s f k)) l' end.

(** Arguments of the two loaders: positional ones or keywords. Game and LAArea are IntEnums
    and are formatted as their number. *)
Inductive arguments := Positional (n : N) | Keyword (n : N).
Definition argument (a : arguments) : N := match a with Positional n | Keyword n => n end.
(** "...{}.pkl".format: {} is the first positional argument. *)
Definition decimal (n : N) : string := NilZero.string_of_uint (N.to_uint n).
Definition format_file (before : string) (a : arguments) : res string :=
  match a with
  | Positional n => Ok (before ++ decimal n ++ ".pkl")%string
  | Keyword _ => Raise IndexError
  end.
(** __init__.py:317-319 and the use at load_encounter_3. *)
Definition LA_FILE : string := "encounter_tables_la_".
Definition ENCOUNTER_3_FILE : string := "encounter_3_".

(** __init__.py:309-315 and 298-307, on the contents of the dict. *)
Definition encode_la (d : list (N * areaLA)) : list (N * (N * list slotLA)) :=
  map (fun '(k, a) => (k, (al_table_id a, al_slots a))) d.
Definition decode_la (d : list (N * (N * list slotLA))) : list (N * areaLA) :=
  fold_left (fun d '(k, (id, slots)) => dict_set N.eqb d k (mkAreaLA id slots)) d [].
