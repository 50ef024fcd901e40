(** The interpreted code of gen3/state.py, gen3/util.py and of the jumps of lcrng32.py and
    lcrng64.py with its scalars tagged by their NumPy types, under the promotion rules of
    NumPy 1 and of NumPy 2. pyproject.toml:14 asks for numpy ">=1.26" without an upper bound.
    All numbers are non-negative. *)
From Coq Require Import NArith ZArith List Bool Floats.SpecFloat.
From Verif Require Import Base.Word Model.Float Model.Lcrng32 Model.Lcrng64 Model.Xorshift Model.Gen3State Model.Scalars.
Import ListNotations.
Open Scope list_scope.
Open Scope N_scope.

Inductive numpy := NumPy_1 | NumPy_2.

(** A binary operator [f] on two scalars. Two unsigned scalars combine to the wider one, and
    the result wraps. In NumPy 1 an unsigned scalar below 64 bits and a Python int (or an
    int64) combine to int64; no int64 below overflows. In NumPy 2 a Python int takes the type
    of the scalar that it meets, and raises OverflowError if it does not fit. Unsigned scalars
    of 64 bits do not occur with [op]. *)
Definition op (v : numpy) (f : N -> N -> N) (a b : scalar) : res scalar :=
  match a, b with
  | PyInt x, PyInt y => Ok (PyInt (f x y))
  | UInt w x, UInt w' y => Ok (UInt (N.max w w') (f x y mod 2 ^ N.max w w'))
  | UInt w x, PyInt y =>
      match v with
      | NumPy_1 => Ok (SInt (f x y))
      | NumPy_2 => if y <? 2 ^ w then Ok (UInt w (f x y mod 2 ^ w)) else Raise OverflowError
      end
  | PyInt x, UInt w y =>
      match v with
      | NumPy_1 => Ok (SInt (f x y))
      | NumPy_2 => if x <? 2 ^ w then Ok (UInt w (f x y mod 2 ^ w)) else Raise OverflowError
      end
  | _, _ => Ok (SInt (f (value a) (value b)))
  end.

(** np.uint8(a), np.uint16(a), np.uint32(a). A Python int out of range wraps in NumPy 1 (with
    a DeprecationWarning) and raises OverflowError in NumPy 2. *)
Definition cast (v : numpy) (w : N) (a : scalar) : res scalar :=
  match v, a with
  | NumPy_2, PyInt n => if n <? 2 ^ w then Ok (UInt w n) else Raise OverflowError
  | _, _ => Ok (UInt w (value a mod 2 ^ w))
  end.

(** util.py:48-51, NATURE_MODIFIERS, under NumPy 2: the Python float 0.1 becomes a float32 and
    the sum is a float32 sum. *)
Definition row_sub2 (row : list spec_float) (j : nat) : list spec_float :=
  aset row j (SFsub 24%Z 128%Z (nth j row S754_nan) (f32_of_f64 tenth)).
Definition row_add2 (row : list spec_float) (j : nat) : list spec_float :=
  aset row j (SFadd 24%Z 128%Z (nth j row S754_nan) (f32_of_f64 tenth)).
Definition nature_row2 (i : nat) : list spec_float :=
  row_add2 (row_sub2 (repeat (f32_of_N 1) 5) (i mod 5)) (i / 5).
Definition NATURE_MODIFIERS2 : list (list spec_float) := map nature_row2 (seq 0 25).

(** gen3/util.py:7-16, [get_gender]. The comparisons are of values. *)
Definition get_gender_of (v : numpy) (pid gender_ratio : scalar) : res N :=
  if value gender_ratio =? 255 then Ok 2
  else if value gender_ratio =? 254 then Ok 1
  else if value gender_ratio =? 0 then Ok 0
  else rmap (fun low => if value low <? value gender_ratio then 1 else 0) (op v N.land pid (PyInt 0xFF)).

(** gen3/util.py:19-27, [get_shiny]. *)
Definition get_shiny_of (v : numpy) (pid tsv : scalar) : res N :=
  rbind (op v N.shiftr pid (PyInt 16)) (fun high =>
  rbind (op v N.land pid (PyInt 0xFFFF)) (fun low =>
  rbind (op v N.lxor high low) (fun psv =>
  if value tsv =? value psv then Ok 2
  else rmap (fun x => if value x <? 8 then 1 else 0) (op v N.lxor tsv psv)))).

(** gen3/util.py:30-39, [unown_check]. *)
Definition unown_check_of (v : numpy) (pid form : scalar) : res bool :=
  let bits mask shift := rbind (op v N.land pid (PyInt mask)) (fun x => op v N.shiftr x (PyInt shift)) in
  rbind (bits 0x3000000 18) (fun a =>
  rbind (bits 0x30000 12) (fun b =>
  rbind (op v N.lor a b) (fun ab =>
  rbind (bits 0x300 6) (fun c =>
  rbind (op v N.lor ab c) (fun abc =>
  rbind (op v N.land pid (PyInt 3)) (fun d =>
  rbind (op v N.lor abc d) (fun all =>
  rbind (op v N.modulo all (PyInt 0x1C)) (fun letter =>
  Ok (value letter =? value form))))))))).

(** Local variables of [update_stats] (gen3/state.py:39-43) that are combined further. *)
Record upd_np := mkUpdNp {
  n_hpv : scalar; n_hps : scalar; n_stats : list N; n_char : scalar; n_max_iv : N }.

(** gen3/state.py:57, the value passed to np.uint16. *)
Definition raw_stat_np (v : numpy) (base : scalar) (iv level : N) : res scalar :=
  rbind (op v N.mul (PyInt 2) base) (fun twice =>
  rbind (op v N.add twice (UInt 8 iv)) (fun sum =>
  rbind (op v N.mul sum (UInt 8 level)) (fun product =>
  op v N.div product (PyInt 100)))).

(** gen3/state.py:53-66: one iteration of the loop. [ivs], [ORDER] and [CHAR_ORDER] are uint8
    arrays, [stats] is a uint16 array. [compute_stat] (util.py:54-57) works on float32; its
    arguments are a value, the nature and the loop variable. The table that it reads is the
    same in both versions (C106_natures). *)
Definition update_body_np (v : numpy) (ivs : list N) (base_stats : list scalar) (level nature ec_index : N)
    (i : nat) (u : upd_np) : res upd_np :=
  let iv := UInt 8 (aget ivs (N.to_nat (aget ORDER i))) in
  rbind (rbind (op v N.land iv (PyInt 1)) (fun b => op v N.shiftl b (PyInt (N.of_nat i)))) (fun b =>
  rbind (op v N.add (n_hpv u) b) (fun hpv =>
  rbind (rbind (op v N.shiftr iv (PyInt 1)) (fun b => rbind (op v N.land b (PyInt 1)) (fun b => op v N.shiftl b (PyInt (N.of_nat i))))) (fun b =>
  rbind (op v N.add (n_hps u) b) (fun hps =>
  rbind (rbind (raw_stat_np v (nth i base_stats (PyInt 0)) (aget ivs i) level) (cast v 16)) (fun stat =>
  rbind
    (match i with
     | O => rbind (op v N.add stat (UInt 8 level)) (fun s => rbind (op v N.add s (PyInt 10)) (fun s =>
            asetr (n_stats u) i (w16 (value s))))
     | _ => rbind (op v N.add stat (PyInt 5)) (fun s =>
            rbind (compute_stat (value s) nature (N.of_nat i)) (fun s => asetr (n_stats u) i s))
     end) (fun stats =>
  rbind (op v N.add (UInt 32 ec_index) (PyInt (N.of_nat i))) (fun position =>
  let index := aget CHAR_ORDER (N.to_nat (value position)) in
  let iv := aget ivs (N.to_nat (aget ORDER (N.to_nat index))) in
  if n_max_iv u <? iv
  then Ok (mkUpdNp hpv hps stats (UInt 8 index) iv)
  else Ok (mkUpdNp hpv hps stats (n_char u) (n_max_iv u))))))))).

(** gen3/state.py:79-103, [GeneratorState.__init__] with [update_stats] (gen3/state.py:35-70),
    interpreted. The arguments are scalars of any kind, [ivs] is a uint8 array. [tag] gives the
    kind of the six base stats: [UInt 8] for a record read from the bundled tables, [PyInt] for
    an object built by hand. gen3/state.py:69 divides two integers, which gives a float64 in
    both versions. *)
Definition gstate_np (v : numpy) (tag : N -> scalar) (junk : list N)
    (advance pid species form : scalar) (ivs : list N) (ability level shiny : scalar)
    (info : personal3) : res gstate :=
  rbind (cast v 32 advance) (fun advance =>
  rbind (cast v 32 pid) (fun pid =>
  rbind (cast v 16 species) (fun species =>
  rbind (cast v 8 form) (fun form =>
  rbind (cast v 8 ability) (fun ability8 =>
  rbind (cast v 8 level) (fun level =>
  rbind (cast v 8 shiny) (fun shiny =>
  rbind (get_gender_of v pid (UInt 8 (pi_gender_ratio info))) (fun gender =>
  rbind (op v N.modulo pid (PyInt 25)) (fun nature =>
  rbind (op v N.modulo pid (UInt 8 6)) (fun ec_index =>
  let base_stats := map tag [pi_hp info; pi_attack info; pi_defense info;
                             pi_special_attack info; pi_special_defense info; pi_speed info] in
  rbind (for_range_r 6 0 (update_body_np v ivs base_stats (value level) (value nature) (value ec_index))
                     (mkUpdNp (UInt 8 0) (UInt 8 0) junk ec_index 0)) (fun u =>
  rbind (rbind (op v N.mul (n_hpv u) (PyInt 15)) (fun x => op v N.div x (PyInt 63))) (fun hidden_power =>
  rbind (op v N.mul (n_hps u) (PyInt 40)) (fun strength =>
  rbind (op v N.mul (n_char u) (PyInt 5)) (fun five =>
  rbind (op v N.modulo (UInt 8 (n_max_iv u)) (PyInt 5)) (fun rest =>
  rbind (op v N.add five rest) (fun characteristic =>
  Ok {| g_advance := value advance; g_pid := value pid; g_species := value species;
        g_form := value form; g_stats := n_stats u;
        g_ability_index := if value ability =? 0 then pi_ability_1 info else pi_ability_2 info;
        g_ivs := ivs; g_ability := value ability8;
        g_characteristic := value characteristic; g_gender := gender;
        g_hidden_power := value hidden_power;
        g_hidden_power_strength :=
          AFloat (f64_add (f64_of_N 30) (f64_div (f64_of_N (value strength)) (f64_of_N 63)));
        g_level := value level; g_nature := value nature; g_shiny := value shiny |})))))))))))))))).

(** [a & 1] and [a >> 1] in the jumps under NumPy 2: the literal takes the type of [a]. *)
Definition with_literal2 (f : N -> N) (a : scalar) : res scalar :=
  match a with
  | PyInt n => Ok (PyInt (f n))
  | UInt w n => Ok (UInt w (f n))
  | SInt n => Ok (SInt (f n))
  end.

(** lcrng32.py:116-126 and lcrng64.py:112-122, [jump], under NumPy 2. *)
Fixpoint jump_loop2 (cast : N -> N) (fuel : nat) (tbl : list (N * N)) (seed : N) (adv : scalar) (i : nat) : N * res N :=
  if value adv =? 0 then (seed, Ok (cast seed))
  else
    match fuel with
    | O => (seed, Raise OutOfFuel)
    | S f =>
        match with_literal2 (fun n => N.land n 1) adv with
        | Raise e => (seed, Raise e)
        | Ok bit =>
            let moved :=
              if value bit =? 0 then Ok seed
              else match nth_error tbl i with
                   | None => Raise IndexError
                   | Some (add, mult) => Ok (cast (seed * mult + add))
                   end in
            match moved with
            | Raise e => (seed, Raise e)
            | Ok seed =>
                match with_literal2 (fun n => N.shiftr n 1) adv with
                | Raise e => (seed, Raise e)
                | Ok adv => jump_loop2 cast f tbl seed adv (S i)
                end
            end
        end
    end.
Definition lcrng32_jump_np2 (add mult seed : N) (adv : scalar) : N * res N :=
  jump_loop2 w32 (N.size_nat (value adv)) (jump_table32 add mult) seed adv 0.
Definition lcrng64_jump_np2 (add mult seed : N) (adv : scalar) : N * res N :=
  jump_loop2 w64 (N.size_nat (value adv)) (jump_table64 add mult) seed adv 0.

(** lcrng32.py:128-138 and lcrng64.py:124-134, the loop of [const_jump], under NumPy 2. *)
Fixpoint const_jump_loop2 (cast : N -> N) (fuel : nat) (tbl : list (N * N)) (add mult : N) (adv : scalar) (i : nat) : res (N * N) :=
  if value adv =? 0 then Ok (add, mult)
  else
    match fuel with
    | O => Raise OutOfFuel
    | S f =>
        match nth_error tbl i with
        | None => Raise IndexError
        | Some (add_val, mult_val) =>
            rbind (with_literal2 (fun n => N.land n 1) adv) (fun bit =>
            let '(add, mult) :=
              if value bit =? 0 then (add, mult)
              else (cast (cast (add * mult_val) + add_val), cast (mult * mult_val)) in
            rbind (with_literal2 (fun n => N.shiftr n 1) adv) (fun adv => const_jump_loop2 cast f tbl add mult adv (S i)))
        end
    end.
Definition lcrng32_const_jump_np2 (add mult : N) (adv : scalar) : res (N -> N) :=
  rmap jump_func32 (const_jump_loop2 w32 (N.size_nat (value adv)) (jump_table32 add mult) 0 1 adv 0).
Definition lcrng64_const_jump_np2 (add mult : N) (adv : scalar) : res (N -> N) :=
  rmap jump_func64 (const_jump_loop2 w64 (N.size_nat (value adv)) (jump_table64 add mult) 0 1 adv 0).

(** xorshift128.py:101-112, [next_float_randrange], under NumPy 2: the literal 1 becomes a
    float32, so that all operations are on float32. *)
Definition xs_next_float_randrange2 (m : mode) (st : list N) (minimum maximum : spec_float)
  : list N * spec_float :=
  let '(st, r) := xs_next m st in
  let rand_float := f32_div (f32_of_N (N.land r 0x7FFFFF)) (f32_of_N 0x7FFFFF) in
  (st, SFadd 24%Z 128%Z (f32_mul rand_float minimum)
               (f32_mul (SFsub 24%Z 128%Z (f32_of_N 1) rand_float) maximum)).
