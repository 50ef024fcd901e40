(** SHA-1 (FIPS 180-4) on byte strings, and the Gen 5 initial seed as a function of
    the console's parameters. *)
From Coq Require Import NArith List Bool.
From Verif Require Import Base.Word.
Import ListNotations.
Open Scope N_scope.

(** * SHA-1 *)
Definition W32 : N := 2^32.
(** Rotation to the left by [n] of a 32-bit word. *)
Definition rol (n x : N) : N := (x * 2^n) mod W32 + x / 2^(32 - n).
Definition Ch (x y z : N) : N := N.lxor (N.land x y) (N.land (W32 - 1 - x) z).
Definition Parity (x y z : N) : N := N.lxor (N.lxor x y) z.
Definition Maj (x y z : N) : N := N.lxor (N.lxor (N.land x y) (N.land x z)) (N.land y z).
Definition sha_f (t : nat) : N -> N -> N -> N :=
  if Nat.ltb t 20 then Ch else if Nat.ltb t 40 then Parity else if Nat.ltb t 60 then Maj else Parity.
Definition sha_k (t : nat) : N :=
  if Nat.ltb t 20 then 0x5A827999 else if Nat.ltb t 40 then 0x6ED9EBA1
  else if Nat.ltb t 60 then 0x8F1BBCDC else 0xCA62C1D6.

(** Message schedule: 64 words are appended to the 16 of the block. *)
Definition extend (ws : list N) : list N :=
  let back n := nth (length ws - n) ws 0 in
  ws ++ [rol 1 (N.lxor (N.lxor (N.lxor (back 3%nat) (back 8%nat)) (back 14%nat)) (back 16%nat))].
Definition schedule (block : list N) : list N := Nat.iter 64 extend block.

Definition vars : Type := (N * N * N * N * N)%type.
Definition round (W : list N) (s : vars) (t : nat) : vars :=
  let '(a, b, c, d, e) := s in
  ((rol 5 a + sha_f t b c d + e + sha_k t + nth t W 0) mod W32, a, rol 30 b, c, d).
Definition compress (H : vars) (block : list N) : vars :=
  let '(h0, h1, h2, h3, h4) := H in
  let '(a, b, c, d, e) := fold_left (round (schedule block)) (seq 0 80) H in
  ((h0 + a) mod W32, (h1 + b) mod W32, (h2 + c) mod W32, (h3 + d) mod W32, (h4 + e) mod W32).
Definition H0 : vars := (0x67452301, 0xEFCDAB89, 0x98BADCFE, 0x10325476, 0xC3D2E1F0).

(** Big-endian bytes of a number and the number of big-endian bytes. *)
Fixpoint be_bytes (n : nat) (v : N) : list N :=
  match n with O => [] | S n => be_bytes n (v / 256) ++ [v mod 256] end.
Definition be_value (bs : list N) : N := fold_left (fun acc b => acc * 256 + b) bs 0.
Definition le_bytes (n : nat) (v : N) : list N := rev (be_bytes n v).
Definition le_value (bs : list N) : N := be_value (rev bs).

Fixpoint chunks (fuel n : nat) (l : list N) : list (list N) :=
  match fuel, l with
  | S fuel, _ :: _ => firstn n l :: chunks fuel n (skipn n l)
  | _, _ => []
  end.
Definition pad (msg : list N) : list N :=
  let len := length msg in
  let zeros := Nat.modulo (119 - Nat.modulo len 64) 64 in
  msg ++ [0x80] ++ repeat 0 zeros ++ be_bytes 8 (8 * N.of_nat len).
Definition blocks (msg : list N) : list (list N) :=
  let p := pad msg in
  map (fun c => map be_value (chunks 16 4 c)) (chunks (length p) 64 p).
Definition sha1_digest (msg : list N) : list N :=
  let '(a, b, c, d, e) := fold_left compress (blocks msg) H0 in
  be_bytes 4 a ++ be_bytes 4 b ++ be_bytes 4 c ++ be_bytes 4 d ++ be_bytes 4 e.

(** FIPS test vectors: "abc", the empty string and the 56-byte message. *)
Example sha1_abc : be_value (sha1_digest [0x61; 0x62; 0x63]) = 0xa9993e364706816aba3e25717850c26c9cd0d89d.
Proof. now vm_compute. Qed.
Example sha1_empty : be_value (sha1_digest []) = 0xda39a3ee5e6b4b0d3255bfef95601890afd80709.
Proof. now vm_compute. Qed.
Example sha1_two_blocks :
  be_value (sha1_digest (flat_map (fun i => [0x61 + i; 0x62 + i; 0x63 + i; 0x64 + i])
                                  [0; 1; 2; 3; 4; 5; 6; 7; 8; 9; 10; 11; 12; 13]))
  = 0x84983e441c3bd26ebaae4aa1f95129e5e54670f1.
Proof. now vm_compute. Qed.

(** * The message *)
Inductive version := Black | White | Black2 | White2.
Inductive language := English | French | German | Italian | Japanese | Korean | Spanish.
Inductive console := DSLite | DSi | DS3.

(** The memory addresses ("nazo" values) hashed. Black and White: one address and two
    fixed offsets from it; Black 2 and White 2: three addresses, one offset. *)
Definition bw_base (l : language) (white dsi : bool) : N :=
  match l, white, dsi with
  | English, false, false => 0x022160B0 | English, true, false => 0x022160D0
  | English, false, true => 0x02760190 | English, true, true => 0x027601B0
  | Japanese, false, false => 0x02215F10 | Japanese, true, false => 0x02215F30
  | Japanese, _, true => 0x02761150
  | German, false, false => 0x02215FF0 | German, true, false => 0x02216010
  | German, _, true => 0x027602F0
  | Spanish, _, false => 0x02216070 | Spanish, _, true => 0x027601F0
  | French, false, false => 0x02216030 | French, true, false => 0x02216050
  | French, false, true => 0x02760230 | French, true, true => 0x02760250
  | Italian, false, false => 0x02215FB0 | Italian, true, false => 0x02215FD0
  | Italian, _, true => 0x027601D0
  | Korean, _, false => 0x022167B0 | Korean, _, true => 0x02761150
  end.
Definition bw2_first (l : language) (white : bool) : N * N :=
  match l, white with
  | English, false => (0x0209AEE8, 0x02039DE9) | English, true => (0x0209AF28, 0x02039E15)
  | Japanese, false => (0x0209A8DC, 0x02039AC9) | Japanese, true => (0x0209A8FC, 0x02039AF5)
  | German, false => (0x0209AE28, 0x02039D69) | German, true => (0x0209AE48, 0x02039D95)
  | Spanish, false => (0x0209AEA8, 0x02039DB9) | Spanish, true => (0x0209AEC8, 0x02039DE5)
  | French, false => (0x0209AF08, 0x02039DF9) | French, true => (0x0209AF28, 0x02039E25)
  | Italian, false => (0x0209ADE8, 0x02039D69) | Italian, true => (0x0209AE28, 0x02039D95)
  | Korean, false => (0x0209B60C, 0x0203A4D5) | Korean, true => (0x0209B62C, 0x0203A501)
  end.
Definition bw2_base (l : language) (white dsi : bool) : N :=
  match l, white, dsi with
  | English, false, false => 0x02200010 | English, true, false => 0x02200050
  | English, false, true => 0x027A5F70 | English, true, true => 0x027A5E90
  | Japanese, false, false => 0x021FF9B0 | Japanese, true, false => 0x021FF9D0
  | Japanese, false, true => 0x027AA730 | Japanese, true, true => 0x027AA5F0
  | German, false, false => 0x021FFF50 | German, true, false => 0x021FFF70
  | German, false, true => 0x027A6110 | German, true, true => 0x027A6010
  | Spanish, false, false => 0x021FFFD0 | Spanish, true, false => 0x021FFFF0
  | Spanish, false, true => 0x027A6070 | Spanish, true, true => 0x027A5FB0
  | French, false, false => 0x02200030 | French, true, false => 0x02200050
  | French, false, true => 0x027A5F90 | French, true, true => 0x027A5EF0
  | Italian, false, false => 0x021FFF10 | Italian, true, false => 0x021FFF50
  | Italian, false, true => 0x027A5F70 | Italian, true, true => 0x027A5ED0
  | Korean, false, false => 0x02200750 | Korean, true, false => 0x02200770
  | Korean, false, true => 0x02200770 | Korean, true, true => 0x027A57B0
  end.
Definition addresses (v : version) (l : language) (c : console) : list N :=
  let dsi := match c with DSLite => false | _ => true end in
  let bw white := let n := bw_base l white dsi in [n; n + 0xFC; n + 0xFC; n + 0x148; n + 0x148] in
  let bw2 white := let n := bw2_base l white dsi in
                   let '(p, q) := bw2_first l white in [p; q; n; n + 0x54; n + 0x54] in
  match v with Black => bw false | White => bw true | Black2 => bw2 false | White2 => bw2 true end.

Record setup := {
  s_version : version; s_language : language; s_console : console;
  s_mac : N; s_soft_reset : bool; s_vframe : N; s_gx : N }.

(** Binary-coded decimal of a two-digit number. *)
Definition bcd (v : N) : N := 16 * (v / 10) + v mod 10.

Definition date : Type := (N * N * N * N)%type.
Definition time : Type := (N * N * N)%type.
Definition timer : Type := (N * N)%type.

Definition date_bytes (d : date) : list N :=
  let '(y, mo, da, dow) := d in [bcd (y - 2000); bcd mo; bcd da; dow].
Definition time_bytes (c : console) (t : time) : list N :=
  let '(h, mi, s) := t in
  [bcd h + (match c with DS3 => 0 | _ => if h <? 12 then 0 else 0x40 end); bcd mi; bcd s; 0].
Definition timer_bytes (t : timer) : list N :=
  let '(t0, vc) := t in le_bytes 2 t0 ++ le_bytes 2 vc.
Definition nth_byte (k v : N) : N := v / 2^(8 * k) mod 256.
Definition setup_bytes (s : setup) : list N :=
  let m := s_mac s in
  [(if s_soft_reset s then 1 else 0); 0; nth_byte 1 m; nth_byte 0 m;
   N.lxor (nth_byte 5 m) (s_vframe s); nth_byte 4 m; nth_byte 3 m; N.lxor (nth_byte 2 m) (s_gx s)].

Definition message (s : setup) (d : date) (t : time) (tm : timer) (button : N) : list N :=
  flat_map (le_bytes 4) (addresses (s_version s) (s_language s) (s_console s))
  ++ timer_bytes tm ++ setup_bytes s ++ date_bytes d ++ time_bytes (s_console s) t
  ++ repeat 0 8 ++ be_bytes 4 button.

(** The initial seed: the first eight bytes of the digest, read little-endian, then one
    step of the game's 64-bit generator. *)
Definition initial_seed (s : setup) (d : date) (t : time) (tm : timer) (button : N) : N :=
  let h := le_value (firstn 8 (sha1_digest (message s d t tm button))) in
  (0x5D588B656C078965 * h + 0x269EC3) mod 2^64.

(** Parameters a user can meaningfully give. *)
Definition valid_setup (s : setup) : Prop := s_mac s < 2^48 /\ s_vframe s < 256 /\ s_gx s < 256.
Definition valid_date (d : date) : bool :=
  let '(y, mo, da, dow) := d in
  (2000 <=? y) && (y <? 2100) && (mo <? 100) && (da <? 100) && (dow <? 256).
Definition valid_time (t : time) : bool :=
  let '(h, mi, s) := t in (h <? 24) && (mi <? 60) && (s <? 60).
Definition valid_timer (t : timer) : bool := let '(t0, vc) := t in (t0 <? 2^16) && (vc <? 2^16).

(** * Sessions on one object *)
Inductive call :=
| CDate (d : date) | CTime (t : time) | CTimer (t : timer) | CButton (b : N)
| CPrecompute | CHash.

(** What is known after some calls: the last valid values set, and whether precompute
    ran after the last change of date or timer. *)
Record known := {
  k_date : option date; k_time : option time; k_timer : option timer; k_button : option N;
  k_fresh : bool }.
Definition nothing_known : known :=
  {| k_date := None; k_time := None; k_timer := None; k_button := None; k_fresh := false |}.
Definition is_some {A} (o : option A) : bool := match o with Some _ => true | None => false end.
Definition keep {A} (ok : A -> bool) (x : A) : option A := if ok x then Some x else None.

Definition learn (k : known) (c : call) : known :=
  match c with
  | CDate d => {| k_date := keep valid_date d; k_time := k_time k; k_timer := k_timer k;
                  k_button := k_button k; k_fresh := false |}
  | CTime t => {| k_date := k_date k; k_time := keep valid_time t; k_timer := k_timer k;
                  k_button := k_button k; k_fresh := k_fresh k |}
  | CTimer t => {| k_date := k_date k; k_time := k_time k; k_timer := keep valid_timer t;
                   k_button := k_button k; k_fresh := false |}
  | CButton b => {| k_date := k_date k; k_time := k_time k; k_timer := k_timer k;
                    k_button := keep (fun b => b <? 2^32) b; k_fresh := k_fresh k |}
  | CPrecompute => {| k_date := k_date k; k_time := k_time k; k_timer := k_timer k;
                      k_button := k_button k; k_fresh := is_some (k_date k) && is_some (k_timer k) |}
  | CHash => k
  end.

(** The outcome a call must have, when one is promised. *)
Definition promised (s : setup) (k : known) (c : call) : option outcome :=
  match c with
  | CDate d => if valid_date d then Some ONone else None
  | CTime t => if valid_time t then Some ONone else None
  | CTimer _ | CButton _ | CPrecompute => Some ONone
  | CHash => match k_date k, k_time k, k_timer k, k_button k, k_fresh k with
             | Some d, Some t, Some tm, Some b, true => Some (OVal (initial_seed s d t tm b))
             | _, _, _, _, _ => None
             end
  end.
Fixpoint promises (s : setup) (k : known) (cs : list call) : list (option outcome) :=
  match cs with
  | [] => []
  | c :: t => promised s k c :: promises s (learn k c) t
  end.
Definition meets (p : option outcome) (o : outcome) : Prop :=
  match p with Some o' => o = o' | None => True end.

(** The numbers that name the parameters in the API: enums/game.py:21-24,
    enums/language.py:8-14, enums/ds_type.py:9-11. *)
Definition version_value (v : version) : N :=
  match v with Black => 2^12 | White => 2^13 | Black2 => 2^14 | White2 => 2^15 end.
Definition language_value (l : language) : N :=
  match l with
  | English => 0 | French => 1 | German => 2 | Italian => 3 | Japanese => 4 | Korean => 5 | Spanish => 6
  end.
Definition console_value (c : console) : N := match c with DSLite => 0 | DSi => 1 | DS3 => 2 end.
