(** numba_pokemon_prngs/options.py: whether numba is used. *)
From Coq Require Import String List Bool.
From Verif Require Import Base.Word.
Import ListNotations.
Open Scope string_scope.

(** What importing options.py does: the value of USE_NUMBA and the number of warnings. *)
Record options := mkOptions { USE_NUMBA : bool; warnings : nat }.

(** options.py:7-14. [environment] is [os.environ], a map from names to values; [find_spec]
    tells whether a package of that name is found. *)
Definition import_options (environment : string -> option string) (find_spec : string -> bool) : options :=
  let use_numba :=
    String.eqb (match environment "NPP_USE_NUMBA" with Some v => v | None => "TRUE" end) "TRUE" in
  if use_numba && negb (find_spec "numba") then mkOptions false 1 else mkOptions use_numba 0.

(** The mode of the models: compilation.py:7-175, [if USE_NUMBA] ... [else] .... *)
Definition mode_of (o : options) : mode := if USE_NUMBA o then Numba else NumPy.
