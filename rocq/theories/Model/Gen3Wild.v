(** Model of numba_pokemon_prngs/gen3/wild_generator_3.py, as compiled code (see
    Model/Gen3Area.v). *)
From Coq Require Import NArith ZArith List Bool.
From Verif Require Import Base.Word Model.Lcrng32 Model.LcrngClasses
  Model.Gen3State Model.Gen3Area.
Import ListNotations.
Open Scope N_scope.

(** enums/method.py:9-37, the members named in the generator. *)
Definition Method_METHOD_2 := 3.
Definition Method_METHOD_4 := 4.

(** wild_generator_3.py:13,15,16. *)
Definition rand_2880 := poke_const_rand 2880.
Definition rand_3 := poke_const_rand 3.
Definition rand_25 := poke_const_rand 25.

(** data/personal/__init__.py:70-77, [get_info_table_3]; the four tables are
    arguments. *)
Record tables3 := mkTables3 {
  t_rs : list personal3; t_e : list personal3; t_fr : list personal3; t_lg : list personal3 }.
Definition get_info_table_3 (t : tables3) (game : N) : list personal3 :=
  if negb (N.land game (N.lor Game_RUBY Game_SAPPHIRE) =? 0) then t_rs t
  else if negb (N.land game Game_EMERALD =? 0) then t_e t
  else if negb (N.land game Game_FIRE_RED =? 0) then t_fr t else t_lg t.

(** wild_generator_3.py:23-28: fields of WildGenerator3. *)
Record wildgen := mkWild {
  w_method : N; w_encounter : N; w_game : N; w_lead : N; w_tsv : N;
  w_table : list personal3 }.

(** wild_generator_3.py:30-47, [__init__]. *)
Definition wild_new (t : tables3) (method encounter lead game tid sid : N) : wildgen :=
  let game := w8 game in
  {| w_method := w8 method; w_encounter := w8 encounter; w_game := game;
     w_lead := if negb (N.land game Game_EMERALD =? 0) then w8 lead else w8 Lead_NONE;
     w_tsv := w16 (N.lxor tid sid);
     w_table := get_info_table_3 t game |}.

(** wild_generator_3.py:49-53, [cute_charm_check]. *)
Definition cute_charm_check (g : wildgen) (pid : N) (info : personal3) : bool :=
  if w_lead g =? Lead_CUTE_CHARM_F
  then pi_gender_ratio info <=? N.land pid 0xFF
  else N.land pid 0xFF <? pi_gender_ratio info.

(** wild_generator_3.py:110,116: [go.next_u16() | (go.next_u16() << 16)]. *)
Definition next_pid (go : N) : N * N :=
  let '(go, low) := poke_next_u16 go in
  let '(go, high) := poke_next_u16 go in
  (go, N.lor low (N.shiftl high 16)).

(** wild_generator_3.py:111-115: the loop condition. *)
Definition pid_rejected (g : wildgen) (info : personal3)
    (search_nature species form : N) (cute_charm : bool) (pid : N) : bool :=
  negb (pid mod 25 =? search_nature)
  || (cute_charm && negb (cute_charm_check g pid info))
  || ((species =? 201) && negb (unown_check pid (w8 form))).

(** wild_generator_3.py:110-116, cut off after [fuel] rejected values. *)
Definition pid_search (fuel : nat) (g : wildgen) (info : personal3)
    (search_nature species form : N) (cute_charm : bool) (go : N) : res (N * N) :=
  while_loop fuel
    (fun s => pid_rejected g info search_nature species form cute_charm (snd s))
    (fun s => next_pid (fst s))
    (next_pid go).

(** wild_generator_3.py:105-108. *)
Definition roll_nature (g : wildgen) (go : N) : N * res N :=
  if w_lead g <=? Lead_SYNCHRONIZE_QUIRKY then
    sbind (rand_2 go) (fun go r => if r =? 0 then (go, Ok (w_lead g)) else rand_25 go)
  else rand_25 go.

(** wild_generator_3.py:95-99: the new value of [cute_charm]. *)
Definition roll_cute_charm (g : wildgen) (info : personal3) (cute_charm : bool) (go : N)
  : N * res bool :=
  if (w_lead g =? Lead_CUTE_CHARM_M) || (w_lead g =? Lead_CUTE_CHARM_F) then
    if (0 <? pi_gender_ratio info) && (pi_gender_ratio info <? 254) then (go, Ok false)
    else sbind (rand_3 go) (fun go r => (go, Ok (negb (r =? 0))))
  else (go, Ok cute_charm).

(** wild_generator_3.py:125-131. *)
Definition ivs_of (iv1 iv2 : N) : list N :=
  [N.land iv1 0x1F; N.land (N.shiftr iv1 5) 0x1F; N.land (N.shiftr iv1 10) 0x1F;
   N.land (N.shiftr iv2 5) 0x1F; N.land (N.shiftr iv2 10) 0x1F; N.land iv2 0x1F].

(** wild_generator_3.py:118-143: from the accepted PID to the state. *)
Definition finish_state (g : wildgen) (junk : list N) (info : personal3)
    (advance species form level go pid : N) : res gstate :=
  let go := if w_method g =? Method_METHOD_2 then poke_next go else go in
  let '(go, iv1) := poke_next_u16 go in
  let go := if w_method g =? Method_METHOD_4 then poke_next go else go in
  let '(go, iv2) := poke_next_u16 go in
  gstate_new Numba junk advance pid species form (ivs_of iv1 iv2) (N.land pid 1) level
             (get_shiny (w32 pid) (w_tsv g)) info.

(** wild_generator_3.py:80-143: one iteration of the loop: [None] stands for the
    [continue] of line 84. [rate] is already multiplied by 16. Also returns the value
    of [cute_charm], which lives across iterations. *)
Definition wild_step (fuel : nat) (junk : list N) (g : wildgen) (area : area3)
    (modified_slots : list slot3) (rate : N) (rse_safari rse cute_charm : bool)
    (rng advance : N) : res (bool * option gstate) :=
  let go := lcrng32_re_init 0 rng in
  let rock := rse && (w_encounter g =? Encounter_ROCK_SMASH) in
  let checked := if rock
                 then sbind (rand_2880 go) (fun go r => (go, Ok (rate <=? r)))
                 else (go, Ok false) in
  snd (sbind checked (fun go skip =>
    if skip then (go, Ok (cute_charm, None)) else
    sbind (calculate_hslot_lead area go (w_encounter g) (w_lead g) modified_slots)
      (fun go slot =>
    let species := N.land (s_species slot) 0x7FF in
    let form := N.shiftr (s_species slot) 11 in
    sbind (calculate_level slot go (w_lead g =? Lead_PRESSURE)) (fun go level =>
    match nth_error (w_table g) (N.to_nat species) with
    | None => (go, Raise IndexError)
    | Some info =>
    sbind (roll_cute_charm g info cute_charm go) (fun go cute_charm =>
    let go := if rse_safari then poke_next go else go in
    sbind (roll_nature g go) (fun go search_nature =>
    match pid_search fuel g info search_nature species form cute_charm go with
    | Raise e => (go, Raise e)
    | Ok (go, pid) =>
        (go, rmap (fun st => (cute_charm, Some st))
                  (finish_state g junk info advance species form level go pid))
    end))
    end)))).

(** wild_generator_3.py:79-147: the loop. [n] advances from [advance] on; [rng] is the
    seed of the main generator. *)
Fixpoint wild_loop (fuel : nat) (junk : list N) (g : wildgen) (area : area3)
    (modified_slots : list slot3) (rate : N) (rse_safari rse : bool)
    (n : nat) (advance : N) (rng : N) (cute_charm : bool) : res (list gstate) :=
  match n with
  | O => Ok []
  | S n' =>
      rbind (wild_step fuel junk g area modified_slots rate rse_safari rse cute_charm
                       rng advance)
        (fun '(cute_charm, st) =>
           match st with
           | None =>                                        (* line 84, [continue] *)
               wild_loop fuel junk g area modified_slots rate rse_safari rse
                         n' (advance + 1) rng cute_charm
           | Some st =>                                     (* lines 145-147 *)
               rmap (cons st)
                 (wild_loop fuel junk g area modified_slots rate rse_safari rse
                            n' (advance + 1) (poke_next rng) cute_charm)
           end)
  end.

(** wild_generator_3.py:55-149, [generate]. [fuel] bounds each PID search and [junk] is
    the content of the uninitialised stats array. *)
Definition wild_generate (fuel : nat) (junk : list N) (g : wildgen)
    (seed delay initial_advances max_advances : N) (area : area3) : res (list gstate) :=
  rbind (get_modified_slots area (w_encounter g) (w_lead g) (w_game g) (w_table g))
    (fun modified_slots =>
  let rate := get_encounter_rate area (w_encounter g) * 16 in
  let rse_safari := is_rse_safari_zone area (w_game g) in
  let rse := negb (N.land (w_game g)
                     (N.lor (N.lor Game_RUBY Game_SAPPHIRE) Game_EMERALD) =? 0) in
  let rng := lcrng32_new seed in
  match poke_jump rng (initial_advances + delay) with
  | (_, Raise e) => Raise e
  | (rng, Ok _) =>
      wild_loop fuel junk g area modified_slots rate rse_safari rse
                (N.to_nat max_advances) initial_advances rng false
  end).
