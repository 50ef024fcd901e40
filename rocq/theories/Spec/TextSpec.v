(** The text of a Gen 3 state, field by field. *)
From Coq Require Import NArith Ascii String List.
From Verif Require Import Base.Word Model.TextData Model.Gen3State Spec.UtilSpec.
Import ListNotations.
Open Scope string_scope.
Open Scope list_scope.
Open Scope N_scope.

(** [s] is the decimal numeral of [n], without leading zeros. *)
Fixpoint decimal_value_from (acc : N) (s : string) : option N :=
  match s with
  | EmptyString => Some acc
  | String c s => let d := N_of_ascii c in
      if (48 <=? d) && (d <=? 57) then decimal_value_from (10 * acc + (d - 48)) s else None
  end%bool.
Definition numeral (s : string) (n : N) : Prop :=
  decimal_value_from 0 s = Some n /\ s <> "" /\ forall t, s = String "0" t -> t = "".

(** The name of a hidden power type, and the symbol of a gender. *)
Definition hidden_powers : list string :=
  ["Fighting"; "Flying"; "Poison"; "Ground"; "Rock"; "Bug"; "Ghost"; "Steel";
   "Fire"; "Water"; "Grass"; "Electric"; "Psychic"; "Ice"; "Dragon"; "Dark"].
Definition gender_symbols : list (N * string) := [(0, "♂"); (1, "♀"); (2, "-")].
(** Forms are shown by number, but not form 0. *)
Definition form_suffix (form : N) (s : string) : Prop :=
  form = 0 /\ s = "" \/ 0 < form /\ exists d, numeral d form /\ s = ("-" ++ d)%string.

(** The line of a state whose hidden power has strength [power]. *)
Definition line_of (st : gstate) (power : N) (line : string) : Prop :=
  exists advance species form level pid nature ability slot ivs stats type strength gender,
    numeral advance (g_advance st) /\
    nth_error SPECIES_EN (N.to_nat (g_species st)) = Some species /\ form_suffix (g_form st) form /\
    numeral level (g_level st) /\
    String.length pid = 8%nat /\ hex_value pid = Some (g_pid st) /\
    nth_error NATURES_EN (N.to_nat (g_nature st)) = Some nature /\
    nth_error ABILITIES_EN (N.to_nat (g_ability_index st)) = Some ability /\ numeral slot (g_ability st) /\
    Forall2 numeral ivs (g_ivs st) /\ Forall2 numeral stats (g_stats st) /\
    nth_error hidden_powers (N.to_nat (g_hidden_power st)) = Some type /\ numeral strength power /\
    In (g_gender st, gender) gender_symbols /\
    line = ("Advance: " ++ advance ++ ", Species: " ++ species ++ form ++ ", Level: " ++ level ++
            ", PID: " ++ pid ++ ", Nature: " ++ nature ++ ", Ability: " ++ ability ++ " (" ++ slot ++
            "), IVs: " ++ String.concat "/" ivs ++ ", Stats: " ++ String.concat "/" stats ++
            ", HP: " ++ type ++ " (" ++ strength ++ "), Gender: " ++ gender)%string.
