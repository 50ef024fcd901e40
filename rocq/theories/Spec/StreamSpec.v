(** A generator as a cursor on one numbered sequence: what each call returns and where it
    leaves the cursor. *)
From Coq Require Import NArith ZArith List.
From Verif Require Import Base.Word Model.Lcrng32 Model.Lcrng64 Model.LcrngObject Model.Xorshift Model.Xoroshiro.
From Verif Require Import Spec.LcrngSpec Spec.XorshiftSpec.
Import ListNotations.
Open Scope N_scope.

(** ** LCRNG: number k of seed s is k steps after s. *)
Section Lcrng.
  (** [w]: bits of the seed; [rand]: what a bounded rand makes of the upper half. *)
  Variables (w mult add : N) (rand : N -> N -> N).
  Definition lcrng_cursor (c : N * N) (op : lcrng_op) : (N * N) * outcome :=
    let '(s, k) := c in
    let number i := lcg_steps w mult add i s in
    let half i := number i / 2^(w / 2) in
    match op with
    | LNext => ((s, k + 1), OVal (number (k + 1)))
    | LHalf => ((s, k + 1), OVal (half (k + 1)))
    | LRand maximum | LConstRand maximum => ((s, k + 1), OVal (rand (half (k + 1)) maximum))
    | LAdvance n | LJump n | LConstJump n => ((s, k + n), OVal (number (k + n)))
    | LReInit s' => ((s' mod 2^w, 0), ONone)
    end.
  Fixpoint lcrng_cursor_run (c : N * N) (ops : list lcrng_op) : (N * N) * list outcome :=
    match ops with
    | [] => (c, [])
    | op :: t => let '(c, o) := lcrng_cursor c op in
                 let '(c, os) := lcrng_cursor_run c t in (c, o :: os)
    end.
  (** The seed under the cursor. *)
  Definition under (c : N * N) : N := lcg_steps w mult add (snd c) (fst c).
End Lcrng.

Definition rand_of_16 (d : dist32) (r maximum : N) : N :=
  match d with D32_RECIPROCAL_DIVISION => r / (65535 / maximum + 1) | _ => r mod maximum end.
Definition rand_of_32 (r maximum : N) : N := r * maximum / 2^32.

(** Counts and maxima that the methods are meant for. *)
Definition lcrng32_valid (d : dist32) (op : lcrng_op) : Prop :=
  match op with
  | LRand maximum | LConstRand maximum =>
      match d with D32_MODULO => 1 <= maximum < 2^16 | D32_RECIPROCAL_DIVISION => 2 <= maximum < 2^16
                 | D32_NONE => False end
  | LAdvance n | LJump n | LConstJump n => n < 2^32
  | _ => True
  end.
Definition lcrng64_valid (d : dist64) (op : lcrng_op) : Prop :=
  match op with
  | LRand maximum | LConstRand maximum =>
      match d with D64_MULTIPLICATION_SHIFT => 1 <= maximum <= 2^32 | D64_NONE => False end
  | LAdvance n | LJump n | LConstJump n => n < 2^64
  | _ => True
  end.

(** ** Xorshift128: words numbered by the integers, those before 0 included. *)
Definition xorshift_stream (x : Z -> N) : Prop :=
  forall i, x i < 2^32 /\ x (i + 4)%Z = xs_word (x i) (x (i + 3)%Z).
Definition xorshift_stream_of (a b c d : N) (x : Z -> N) : Prop :=
  xorshift_stream x /\ x 0%Z = a mod 2^32 /\ x 1%Z = b mod 2^32 /\ x 2%Z = c mod 2^32 /\ x 3%Z = d mod 2^32.
(** The four words from the cursor on. *)
Definition xs_window (c : (Z -> N) * Z) : list N :=
  let '(x, i) := c in [x i; x (i + 1)%Z; x (i + 2)%Z; x (i + 3)%Z].
(** A number of [lo, hi) as a 32-bit two's complement. *)
Definition twos (z : Z) : N := Z.to_N (z mod 2^32).
Definition ranged (r : N) (lo hi : Z) : N := twos (lo + Z.of_N r mod (hi - lo)).

Section Xorshift.
  (** The stream of each seed. *)
  Variable stream : N -> N -> N -> N -> Z -> N.
  Definition xs_cursor (c : (Z -> N) * Z) (op : xs_op) : ((Z -> N) * Z) * outcome :=
    let '(x, i) := c in
    let fresh := x (i + 4)%Z in
    match op with
    | XNext => ((x, i + 1)%Z, OVal fresh)
    | XPrev => ((x, i - 1)%Z, OVal (x (i + 3)%Z))
    | XAdvance n => ((x, i + Z.of_N n)%Z, ONone)
    | XRange lo hi => ((x, i + 1)%Z, OVal (ranged fresh lo hi))
    | XRand maximum => ((x, i + 1)%Z, OVal (fresh mod (maximum mod 2^32)))
    | XAlt maximum => ((x, i + 1)%Z, OVal (ranged fresh (-2^31) (2^31 - 1) mod maximum))
    | XReInit a b c d => ((stream a b c d, 0%Z), ONone)
    end.
  Fixpoint xs_cursor_run (c : (Z -> N) * Z) (ops : list xs_op) : ((Z -> N) * Z) * list outcome :=
    match ops with
    | [] => (c, [])
    | op :: t => let '(c, o) := xs_cursor c op in
                 let '(c, os) := xs_cursor_run c t in (c, o :: os)
    end.
End Xorshift.

(** ** Xoroshiro128+: states numbered by the integers. *)
Definition xoroshiro_stream (x : Z -> list N) : Prop :=
  forall i, xo_words (x i) /\ x (i + 1)%Z = xoroshiro_next (x i).
Definition xoroshiro_stream_of (a b : N) (x : Z -> list N) : Prop :=
  xoroshiro_stream x /\ x 0%Z = [a; b].

(** Output number i, and its upper half. *)
Definition full (x : Z -> list N) (i : Z) : N := xoroshiro_output (x i).
Definition upper (x : Z -> list N) (i : Z) : N := full x i / 2^32.

Section Splitmix.
  Variable stream : N -> N -> Z -> list N.
  Definition sm_cursor (c : (Z -> list N) * Z) (op : sm_op) : ((Z -> list N) * Z) * outcome :=
    let '(x, i) := c in
    match op with
    | SmNext => ((x, i + 1)%Z, OVal (upper x i))
    | SmPrev => ((x, i - 1)%Z, OVal (upper x (i - 1)))
    | SmAdvance n => ((x, i + Z.of_N n)%Z, ONone)
    | SmRand maximum => ((x, i + 1)%Z, OVal (upper x i mod maximum))
    | SmReInit seed => ((stream (splitmix64 (seed mod 2^64) 1) (splitmix64 (seed mod 2^64) 2), 0%Z), ONone)
    end.
  Fixpoint sm_cursor_run (c : (Z -> list N) * Z) (ops : list sm_op) : ((Z -> list N) * Z) * list outcome :=
    match ops with
    | [] => (c, [])
    | op :: t => let '(c, o) := sm_cursor c op in
                 let '(c, os) := sm_cursor_run c t in (c, o :: os)
    end.

  (** Rejection: the first number below the maximum among the low bits of the outputs. *)
  Definition drawn (x : Z -> list N) (i : Z) (maximum : N) : N := full x i mod 2^(N.log2_up maximum).
  Inductive xo_cursor : (Z -> list N) * Z -> xo_op -> (Z -> list N) * Z -> outcome -> Prop :=
  | Cur_next x i : xo_cursor (x, i) ONext (x, i + 1)%Z (OVal (full x i))
  | Cur_previous x i : xo_cursor (x, i) OPrev (x, i - 1)%Z (OVal (full x (i - 1)))
  | Cur_advance x i n : xo_cursor (x, i) (OAdvance n) (x, i + Z.of_N n)%Z ONone
  | Cur_rand x i fuel maximum k :
      (i <= k)%Z -> (forall j, (i <= j < k)%Z -> maximum <= drawn x j maximum) -> drawn x k maximum < maximum ->
      xo_cursor (x, i) (ORand fuel maximum) (x, k + 1)%Z (OVal (drawn x k maximum))
  | Cur_re_init c a b : xo_cursor c (OReInit a b) (stream (a mod 2^64) (b mod 2^64), 0%Z) ONone.
  Inductive xo_cursor_run : (Z -> list N) * Z -> list xo_op -> (Z -> list N) * Z -> list outcome -> Prop :=
  | Run_nil c : xo_cursor_run c [] c []
  | Run_cons c op c' o t c'' os :
      xo_cursor c op c' o -> xo_cursor_run c' t c'' os -> xo_cursor_run c (op :: t) c'' (o :: os).
End Splitmix.
