(** Properties C01-C10: linear congruential generators. *)
From Coq Require Import NArith ZArith List.
From Verif Require Import Base.Word Spec.LcrngSpec Model.Compat Model.Lcrng32 Model.Lcrng64
  Model.LcrngClasses Proofs.LcrngFinal Proofs.CompatProofs.
Import ListNotations.
Open Scope N_scope.

(** C01. jump(adv) = adv x next() = advance(adv): same final seed, same returned value. *)
Theorem C01_jump_is_repeated_next_32 : forall add mult seed adv,
  seed < 2^32 -> adv < 2^32 ->
  lcrng32_jump add mult seed adv
    = (lcg_steps 32 mult add adv seed, Ok (lcg_steps 32 mult add adv seed)) /\
  N.iter adv (lcrng32_next add mult) seed = lcg_steps 32 mult add adv seed /\
  lcrng32_advance add mult seed adv = lcg_steps 32 mult add adv seed.
Proof. exact c01_32. Qed.
Print Assumptions C01_jump_is_repeated_next_32.

Theorem C01_jump_is_repeated_next_64 : forall add mult seed adv,
  seed < 2^64 -> adv < 2^64 ->
  lcrng64_jump add mult seed adv
    = (lcg_steps 64 mult add adv seed, Ok (lcg_steps 64 mult add adv seed)) /\
  N.iter adv (lcrng64_next add mult) seed = lcg_steps 64 mult add adv seed /\
  lcrng64_advance add mult seed adv = lcg_steps 64 mult add adv seed.
Proof. exact c01_64. Qed.
Print Assumptions C01_jump_is_repeated_next_64.

(** A case: PokeRNG from 0x12345678, 12 steps (value of the repository's test). *)
Example C01_case : 0x12345678 < 2^32 /\ 12 < 2^32 /\
  lcrng32_jump 0x6073 0x41C64E6D 646229279 12 = (3217940315, Ok 3217940315).
Proof. now vm_compute. Qed.

(** C02. The function made by const_jump(adv) does what jump(adv) does. *)
Theorem C02_const_jump_is_jump_32 : forall add mult adv, adv < 2^32 ->
  exists f, lcrng32_const_jump add mult adv = Ok f /\
    forall seed, seed < 2^32 ->
      f seed = lcg_steps 32 mult add adv seed /\
      lcrng32_jump add mult seed adv = (f seed, Ok (f seed)).
Proof. exact c02_32. Qed.
Print Assumptions C02_const_jump_is_jump_32.

Theorem C02_const_jump_is_jump_64 : forall add mult adv, adv < 2^64 ->
  exists f, lcrng64_const_jump add mult adv = Ok f /\
    forall seed, seed < 2^64 ->
      f seed = lcg_steps 64 mult add adv seed /\
      lcrng64_jump add mult seed adv = (f seed, Ok (f seed)).
Proof. exact c02_64. Qed.
Print Assumptions C02_const_jump_is_jump_64.

Example C02_case : 1234567890 < 2^32 /\
  match lcrng32_const_jump 0x6073 0x41C64E6D 12 with
  | Ok f => f 646229279 = 3217940315 | Raise _ => False end.
Proof. now vm_compute. Qed.

(** C03. reverse=True builds the inverse generator. *)
Theorem C03_reverse_undoes_forward_32 : forall minor add mult, N.odd mult = true ->
  exists fa fm ra rm,
    lcrng32_consts minor add mult false = Ok (fa, fm) /\
    lcrng32_consts minor add mult true = Ok (ra, rm) /\
    forall seed, seed < 2^32 ->
      lcrng32_next fa fm seed = lcg 32 mult add seed /\
      lcrng32_next ra rm (lcrng32_next fa fm seed) = seed /\
      lcrng32_next fa fm (lcrng32_next ra rm seed) = seed /\
      forall n, n < 2^32 ->
        lcrng32_jump ra rm (fst (lcrng32_jump fa fm seed n)) n = (seed, Ok seed) /\
        lcrng32_jump fa fm (fst (lcrng32_jump ra rm seed n)) n = (seed, Ok seed).
Proof. exact c03_32. Qed.
Print Assumptions C03_reverse_undoes_forward_32.

Theorem C03_reverse_undoes_forward_64 : forall minor add mult, N.odd mult = true ->
  exists fa fm ra rm,
    lcrng64_consts minor add mult false = Ok (fa, fm) /\
    lcrng64_consts minor add mult true = Ok (ra, rm) /\
    forall seed, seed < 2^64 ->
      lcrng64_next fa fm seed = lcg 64 mult add seed /\
      lcrng64_next ra rm (lcrng64_next fa fm seed) = seed /\
      lcrng64_next fa fm (lcrng64_next ra rm seed) = seed /\
      forall n, n < 2^64 ->
        lcrng64_jump ra rm (fst (lcrng64_jump fa fm seed n)) n = (seed, Ok seed) /\
        lcrng64_jump fa fm (fst (lcrng64_jump ra rm seed n)) n = (seed, Ok seed).
Proof. exact c03_64. Qed.
Print Assumptions C03_reverse_undoes_forward_64.

(** Even multipliers have no inverse and are rejected when the class is built. *)
Theorem C03_even_multiplier_rejected : forall minor add mult, N.odd mult = false ->
  lcrng32_consts minor add mult true = Raise ValueError /\
  lcrng64_consts minor add mult true = Raise ValueError.
Proof. exact (fun minor add mult H => conj (c03_even32 minor add mult H) (c03_even64 minor add mult H)). Qed.
Print Assumptions C03_even_multiplier_rejected.

Example C03_case : N.odd 0x41C64E6D = true /\ N.odd 0x5D588B656C078965 = true /\
  lcrng32_consts 8 0x6073 0x41C64E6D true = Ok (0xA3561A1, 0xEEB9EB65).
Proof. now vm_compute. Qed.

(** C04. Out-of-range jumps raise IndexError; advance() reduces its argument. The
    first component is the seed field left behind by the failed jump. *)
Theorem C04_out_of_range_jump_32 : forall add mult seed adv, seed < 2^32 -> 2^32 <= adv ->
  lcrng32_jump add mult seed adv = (lcg_steps 32 mult add (adv mod 2^32) seed, Raise IndexError) /\
  lcrng32_const_jump add mult adv = Raise IndexError /\
  lcrng32_advance add mult seed adv = lcg_steps 32 mult add (adv mod 2^32) seed.
Proof. exact c04_32. Qed.
Print Assumptions C04_out_of_range_jump_32.

Theorem C04_out_of_range_jump_64 : forall add mult seed adv, seed < 2^64 -> 2^64 <= adv ->
  lcrng64_jump add mult seed adv = (lcg_steps 64 mult add (adv mod 2^64) seed, Raise IndexError) /\
  lcrng64_const_jump add mult adv = Raise IndexError /\
  lcrng64_advance add mult seed adv = lcg_steps 64 mult add (adv mod 2^64) seed.
Proof. exact c04_64. Qed.
Print Assumptions C04_out_of_range_jump_64.

Example C04_case : 2^32 <= 4294967297 /\
  snd (lcrng32_jump 0x6073 0x41C64E6D 1 4294967297) = Raise IndexError.
Proof. now vm_compute. Qed.

(** C05. Every published generator has one cycle through all seeds. *)
Theorem C05_full_period_32 : forall minor p, In p published32 ->
  exists a m, consts_of32 minor p = Ok (a, m) /\ full_period 32 (lcrng32_next a m).
Proof. exact c05_32. Qed.
Print Assumptions C05_full_period_32.

Theorem C05_full_period_64 : forall minor p, In p published64 ->
  exists a m, consts_of64 minor p = Ok (a, m) /\ full_period 64 (lcrng64_next a m).
Proof. exact c05_64. Qed.
Print Assumptions C05_full_period_64.

Example C05_case : In XDRNGR published32 /\ In BWRNG published64.
Proof. split; simpl; tauto. Qed.

(** C06. Bounded rands: formula, range, one step consumed. *)
Theorem C06_next_rand_modulo : forall m add mult seed max, 1 <= max < 2^16 ->
  let s := lcg 32 mult add seed in
  exists v, lcrng32_next_rand m D32_MODULO add mult seed max = (s, Ok v) /\
            v = (s / 2^16) mod max /\ v < max.
Proof. exact c06_modulo. Qed.
Print Assumptions C06_next_rand_modulo.

Theorem C06_next_rand_reciprocal : forall m add mult seed max, 2 <= max < 2^16 ->
  let s := lcg 32 mult add seed in
  exists v, lcrng32_next_rand m D32_RECIPROCAL_DIVISION add mult seed max = (s, Ok v) /\
            v = (s / 2^16) / (65535 / max + 1) /\ v < max.
Proof. exact c06_reciprocal. Qed.
Print Assumptions C06_next_rand_reciprocal.

Theorem C06_next_rand_multiplication_shift : forall add mult seed max, 1 <= max <= 2^32 ->
  let s := lcg 64 mult add seed in
  exists v, lcrng64_next_rand D64_MULTIPLICATION_SHIFT add mult seed max = (s, Ok v) /\
            v = (s / 2^32) * max / 2^32 /\ v < max.
Proof. exact c06_mulshift. Qed.
Print Assumptions C06_next_rand_multiplication_shift.

Theorem C06_no_distribution : forall m add mult seed max,
  lcrng32_next_rand m D32_NONE add mult seed max = (seed, Raise NotImplementedError) /\
  lcrng64_next_rand D64_NONE add mult seed max = (seed, Raise NotImplementedError).
Proof. exact (fun m a b c d => conj (c06_none m a b c d) (c06_none64 a b c d)). Qed.
Print Assumptions C06_no_distribution.

Example C06_case : 2 <= 25 < 2^16 /\
  lcrng32_next_rand Numba D32_RECIPROCAL_DIVISION 0x6073 0x41C64E6D 0x12345678 25
  = (192004491, Ok 1).
Proof. now vm_compute. Qed.

(** C07. const_rand(maximum) is next_rand(maximum). *)
Theorem C07_const_rand_is_next_rand_32 : forall m d add mult max,
  match lcrng32_const_rand m d add mult max with
  | Ok f => forall seed, f seed = lcrng32_next_rand m d add mult seed max
  | Raise e => forall seed, lcrng32_next_rand m d add mult seed max = (seed, Raise e)
  end.
Proof. exact c07_32. Qed.
Print Assumptions C07_const_rand_is_next_rand_32.

Theorem C07_const_rand_is_next_rand_64 : forall d add mult max,
  match lcrng64_const_rand d add mult max with
  | Ok f => forall seed, f seed = lcrng64_next_rand d add mult seed max
  | Raise e => forall seed, lcrng64_next_rand d add mult seed max = (seed, Raise e)
  end.
Proof. exact c07_64. Qed.
Print Assumptions C07_const_rand_is_next_rand_64.

Example C07_case : match lcrng32_const_rand NumPy D32_MODULO 0x6073 0x41C64E6D 25 with
                   | Ok f => f 0x12345678 = (192004491, Ok 4) | Raise _ => False end.
Proof. now vm_compute. Qed.

(** C08. Which values a bounded rand can produce. *)
Theorem C08_reciprocal_reaches_all_upto_256 : forall m add mult max t,
  N.odd mult = true -> 2 <= max <= 256 -> t < max ->
  exists seed, seed < 2^32 /\
    snd (lcrng32_next_rand m D32_RECIPROCAL_DIVISION add mult seed max) = Ok t.
Proof. exact c08_reciprocal. Qed.
Print Assumptions C08_reciprocal_reaches_all_upto_256.

(** The bound 256 is sharp: with maximum 257 the value 256 never occurs. *)
Theorem C08_reciprocal_257_never_256 : forall m add mult seed,
  snd (lcrng32_next_rand m D32_RECIPROCAL_DIVISION add mult seed 257) <> Ok 256.
Proof. exact c08_reciprocal_gap. Qed.
Print Assumptions C08_reciprocal_257_never_256.

Theorem C08_modulo_reaches_all : forall m add mult max t,
  N.odd mult = true -> 1 <= max < 2^16 -> t < max ->
  exists seed, seed < 2^32 /\
    snd (lcrng32_next_rand m D32_MODULO add mult seed max) = Ok t.
Proof. exact c08_modulo. Qed.
Print Assumptions C08_modulo_reaches_all.

Theorem C08_multiplication_shift_reaches_all : forall add mult max t,
  N.odd mult = true -> 1 <= max <= 2^32 -> t < max ->
  exists seed, seed < 2^64 /\
    snd (lcrng64_next_rand D64_MULTIPLICATION_SHIFT add mult seed max) = Ok t.
Proof. exact c08_mulshift. Qed.
Print Assumptions C08_multiplication_shift_reaches_all.

Example C08_case : N.odd 0x41C64E6D = true /\ 2 <= 256 <= 256 /\ 255 < 256.
Proof. now vm_compute. Qed.

(** C09. Degenerate maxima, complete table. The last three lines of each mode
    differ: reciprocal division by maximum 1 raises under numba although
    [0, 1) is a valid range, and maximum 0 returns the raw rand without numba. *)
Theorem C09_degenerate_maxima : forall add mult seed,
  let s := lcg 32 mult add seed in
  lcrng32_next_rand NumPy D32_MODULO add mult seed 1 = (s, Ok 0) /\
  lcrng32_next_rand Numba D32_MODULO add mult seed 1 = (s, Ok 0) /\
  lcrng32_next_rand NumPy D32_MODULO add mult seed 0 = (s, Ok 0) /\
  lcrng32_next_rand Numba D32_MODULO add mult seed 0 = (s, Raise ZeroDivisionError) /\
  lcrng32_next_rand NumPy D32_RECIPROCAL_DIVISION add mult seed 1 = (s, Ok 0) /\
  lcrng32_next_rand Numba D32_RECIPROCAL_DIVISION add mult seed 1 = (s, Raise ZeroDivisionError) /\
  lcrng32_next_rand NumPy D32_RECIPROCAL_DIVISION add mult seed 0 = (s, Ok (s / 2^16)) /\
  lcrng32_next_rand Numba D32_RECIPROCAL_DIVISION add mult seed 0 = (s, Raise ZeroDivisionError).
Proof. exact c09_table. Qed.
Print Assumptions C09_degenerate_maxima.

Theorem C09_multiplication_shift_degenerate : forall add mult seed,
  lcrng64_next_rand D64_MULTIPLICATION_SHIFT add mult seed 0 = (lcg 64 mult add seed, Ok 0) /\
  lcrng64_next_rand D64_MULTIPLICATION_SHIFT add mult seed 1 = (lcg 64 mult add seed, Ok 0).
Proof. exact c09_mulshift_zero. Qed.
Print Assumptions C09_multiplication_shift_degenerate.

Example C09_case : snd (lcrng32_next_rand NumPy D32_RECIPROCAL_DIVISION 0x6073 0x41C64E6D 0x12345678 0) = Ok 2929.
Proof. now vm_compute. Qed.

(** C10. mod_inv, whichever implementation the Python version selects. *)
Theorem C10_mod_inv_correct : forall minor v m, (0 <= v)%Z -> (0 < m)%Z ->
  (Z.gcd v m = 1%Z ->
     exists r, mod_inv minor v m = Ok r /\ (0 <= r < m)%Z /\ ((v * r) mod m = 1 mod m)%Z) /\
  (Z.gcd v m <> 1%Z -> mod_inv minor v m = Raise ValueError).
Proof. exact mod_inv_ok. Qed.
Print Assumptions C10_mod_inv_correct.

Theorem C10_mod_inv_versions_agree : forall v m minor1 minor2, (0 <= v)%Z -> (0 < m)%Z ->
  mod_inv minor1 v m = mod_inv minor2 v m.
Proof. exact mod_inv_versions_agree. Qed.
Print Assumptions C10_mod_inv_versions_agree.

Theorem C10_inverse_unique : forall v m r s, (0 < m)%Z -> (0 <= r < m)%Z -> (0 <= s < m)%Z ->
  ((v * r) mod m = 1 mod m)%Z -> ((v * s) mod m = 1 mod m)%Z -> r = s.
Proof. exact inverse_unique. Qed.
Print Assumptions C10_inverse_unique.

Example C10_case : Z.gcd 0x41C64E6D 0x100000000 = 1%Z /\
  mod_inv 7 0x41C64E6D 0x100000000 = Ok 0xEEB9EB65%Z /\
  mod_inv 12 0x41C64E6D 0x100000000 = Ok 0xEEB9EB65%Z /\
  mod_inv 12 6 4 = Raise ValueError.
Proof. now vm_compute. Qed.
