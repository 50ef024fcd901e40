(** numba_pokemon_prngs/sha1.py. The nazo table, [get_nazo] and the round chains are
    transcribed by tools/gen_sha1.py. [data] is a list of 80 words. *)
From Coq Require Import NArith List Bool.
From Verif Require Import Base.Word Model.Util Model.Lcrng64 Model.LcrngClasses.
Import ListNotations.
Open Scope N_scope.

(** rotate_left_u32 and rotate_right_u32 (util.py:16-29) for the counts 1, 2, 5 used
    here, which are in the defined range of both modes. *)
Definition rotl32 (val count : N) : N := rotl32_raw (w32 val) count (32 - count).
Definition rotr32 (val count : N) : N := rotr32_raw (w32 val) count (32 - count).

(** sha1.py:20-32, [compute_nazo_bw]. *)
Definition compute_nazo_bw (input_nazo : N) : list N :=
  let input_nazo := w32 input_nazo in
  let n1 := change_endian_u32 (w32 (input_nazo + 0xFC)) in
  let n3 := change_endian_u32 (w32 (w32 (input_nazo + 0xFC) + 0x4C)) in
  [change_endian_u32 input_nazo; n1; n1; n3; n3].
(** sha1.py:35-49, [compute_nazo_bw2]. *)
Definition compute_nazo_bw2 (input_nazo input_nazo0 input_nazo1 : N) : list N :=
  let input_nazo := w32 input_nazo in
  let input_nazo0 := w32 input_nazo0 in
  let input_nazo1 := w32 input_nazo1 in
  let n3 := change_endian_u32 (w32 (input_nazo + 0x54)) in
  [change_endian_u32 input_nazo0; change_endian_u32 input_nazo1; change_endian_u32 input_nazo; n3; n3].

(** sha1.py:50-111 *)
Definition ENGLISH_BLACK : list N := compute_nazo_bw 0x022160B0.
Definition ENGLISH_WHITE : list N := compute_nazo_bw 0x022160D0.
Definition ENGLISH_BLACK_DSI : list N := compute_nazo_bw 0x02760190.
Definition ENGLISH_WHITE_DSI : list N := compute_nazo_bw 0x027601B0.
Definition ENGLISH_BLACK2 : list N := compute_nazo_bw2 0x02200010 0x0209AEE8 0x02039DE9.
Definition ENGLISH_WHITE2 : list N := compute_nazo_bw2 0x02200050 0x0209AF28 0x02039E15.
Definition ENGLISH_BLACK2_DSI : list N := compute_nazo_bw2 0x027A5F70 0x0209AEE8 0x02039DE9.
Definition ENGLISH_WHITE2_DSI : list N := compute_nazo_bw2 0x027A5E90 0x0209AF28 0x02039E15.
Definition JAPANESE_BLACK : list N := compute_nazo_bw 0x02215F10.
Definition JAPANESE_WHITE : list N := compute_nazo_bw 0x02215F30.
Definition JAPANESE_BLACK_DSI : list N := compute_nazo_bw 0x02761150.
Definition JAPANESE_WHITE_DSI : list N := compute_nazo_bw 0x02761150.
Definition JAPANESE_BLACK2 : list N := compute_nazo_bw2 0x021FF9B0 0x0209A8DC 0x02039AC9.
Definition JAPANESE_WHITE2 : list N := compute_nazo_bw2 0x021FF9D0 0x0209A8FC 0x02039AF5.
Definition JAPANESE_BLACK2_DSI : list N := compute_nazo_bw2 0x027AA730 0x0209A8DC 0x02039AC9.
Definition JAPANESE_WHITE2_DSI : list N := compute_nazo_bw2 0x027AA5F0 0x0209A8FC 0x02039AF5.
Definition GERMAN_BLACK : list N := compute_nazo_bw 0x02215FF0.
Definition GERMAN_WHITE : list N := compute_nazo_bw 0x02216010.
Definition GERMAN_BLACK_DSI : list N := compute_nazo_bw 0x027602F0.
Definition GERMAN_WHITE_DSI : list N := compute_nazo_bw 0x027602F0.
Definition GERMAN_BLACK2 : list N := compute_nazo_bw2 0x021FFF50 0x0209AE28 0x02039D69.
Definition GERMAN_WHITE2 : list N := compute_nazo_bw2 0x021FFF70 0x0209AE48 0x02039D95.
Definition GERMAN_BLACK2_DSI : list N := compute_nazo_bw2 0x027A6110 0x0209AE28 0x02039D69.
Definition GERMAN_WHITE2_DSI : list N := compute_nazo_bw2 0x027A6010 0x0209AE48 0x02039D95.
Definition SPANISH_BLACK : list N := compute_nazo_bw 0x02216070.
Definition SPANISH_WHITE : list N := compute_nazo_bw 0x02216070.
Definition SPANISH_BLACK_DSI : list N := compute_nazo_bw 0x027601F0.
Definition SPANISH_WHITE_DSI : list N := compute_nazo_bw 0x027601F0.
Definition SPANISH_BLACK2 : list N := compute_nazo_bw2 0x021FFFD0 0x0209AEA8 0x02039DB9.
Definition SPANISH_WHITE2 : list N := compute_nazo_bw2 0x021FFFF0 0x0209AEC8 0x02039DE5.
Definition SPANISH_BLACK2_DSI : list N := compute_nazo_bw2 0x027A6070 0x0209AEA8 0x02039DB9.
Definition SPANISH_WHITE2_DSI : list N := compute_nazo_bw2 0x027A5FB0 0x0209AEC8 0x02039DE5.
Definition FRENCH_BLACK : list N := compute_nazo_bw 0x02216030.
Definition FRENCH_WHITE : list N := compute_nazo_bw 0x02216050.
Definition FRENCH_BLACK_DSI : list N := compute_nazo_bw 0x02760230.
Definition FRENCH_WHITE_DSI : list N := compute_nazo_bw 0x02760250.
Definition FRENCH_BLACK2 : list N := compute_nazo_bw2 0x02200030 0x0209AF08 0x02039DF9.
Definition FRENCH_WHITE2 : list N := compute_nazo_bw2 0x02200050 0x0209AF28 0x02039E25.
Definition FRENCH_BLACK2_DSI : list N := compute_nazo_bw2 0x027A5F90 0x0209AF08 0x02039DF9.
Definition FRENCH_WHITE2_DSI : list N := compute_nazo_bw2 0x027A5EF0 0x0209AF28 0x02039E25.
Definition ITALIAN_BLACK : list N := compute_nazo_bw 0x02215FB0.
Definition ITALIAN_WHITE : list N := compute_nazo_bw 0x02215FD0.
Definition ITALIAN_BLACK_DSI : list N := compute_nazo_bw 0x027601D0.
Definition ITALIAN_WHITE_DSI : list N := compute_nazo_bw 0x027601D0.
Definition ITALIAN_BLACK2 : list N := compute_nazo_bw2 0x021FFF10 0x0209ADE8 0x02039D69.
Definition ITALIAN_WHITE2 : list N := compute_nazo_bw2 0x021FFF50 0x0209AE28 0x02039D95.
Definition ITALIAN_BLACK2_DSI : list N := compute_nazo_bw2 0x027A5F70 0x0209ADE8 0x02039D69.
Definition ITALIAN_WHITE2_DSI : list N := compute_nazo_bw2 0x027A5ED0 0x0209AE28 0x02039D95.
Definition KOREAN_BLACK : list N := compute_nazo_bw 0x022167B0.
Definition KOREAN_WHITE : list N := compute_nazo_bw 0x022167B0.
Definition KOREAN_BLACK_DSI : list N := compute_nazo_bw 0x02761150.
Definition KOREAN_WHITE_DSI : list N := compute_nazo_bw 0x02761150.
Definition KOREAN_BLACK2 : list N := compute_nazo_bw2 0x02200750 0x0209B60C 0x0203A4D5.
Definition KOREAN_WHITE2 : list N := compute_nazo_bw2 0x02200770 0x0209B62C 0x0203A501.
Definition KOREAN_BLACK2_DSI : list N := compute_nazo_bw2 0x02200770 0x0209B60C 0x0203A4D5.
Definition KOREAN_WHITE2_DSI : list N := compute_nazo_bw2 0x027A57B0 0x0209B62C 0x0203A501.

(** enums/game.py:21-24, enums/language.py:8-14, enums/ds_type.py:9-11: the members
    that occur here. *)
Definition G_BLACK : N := 4096.
Definition G_WHITE : N := 8192.
Definition G_BLACK2 : N := 16384.
Definition G_WHITE2 : N := 32768.
Definition L_ENGLISH : N := 0.
Definition L_FRENCH : N := 1.
Definition L_GERMAN : N := 2.
Definition L_ITALIAN : N := 3.
Definition L_JAPANESE : N := 4.
Definition L_KOREAN : N := 5.
Definition L_SPANISH : N := 6.
Definition DS_DS : N := 0.
Definition DS_DSI : N := 1.
Definition DS_DS3 : N := 2.

(** sha1.py:118-188, [get_nazo]. A language with no matching version falls through to
    the next test, which fails, so the result is zeros. *)
Definition get_nazo (version language ds_type : N) : list N :=
  if (language =? L_ENGLISH) && (version =? G_BLACK) then (if ds_type =? DS_DS then ENGLISH_BLACK else ENGLISH_BLACK_DSI) else
  if (language =? L_ENGLISH) && (version =? G_WHITE) then (if ds_type =? DS_DS then ENGLISH_WHITE else ENGLISH_WHITE_DSI) else
  if (language =? L_ENGLISH) && (version =? G_BLACK2) then (if ds_type =? DS_DS then ENGLISH_BLACK2 else ENGLISH_BLACK2_DSI) else
  if (language =? L_ENGLISH) && (version =? G_WHITE2) then (if ds_type =? DS_DS then ENGLISH_WHITE2 else ENGLISH_WHITE2_DSI) else
  if (language =? L_JAPANESE) && (version =? G_BLACK) then (if ds_type =? DS_DS then JAPANESE_BLACK else JAPANESE_BLACK_DSI) else
  if (language =? L_JAPANESE) && (version =? G_WHITE) then (if ds_type =? DS_DS then JAPANESE_WHITE else JAPANESE_WHITE_DSI) else
  if (language =? L_JAPANESE) && (version =? G_BLACK2) then (if ds_type =? DS_DS then JAPANESE_BLACK2 else JAPANESE_BLACK2_DSI) else
  if (language =? L_JAPANESE) && (version =? G_WHITE2) then (if ds_type =? DS_DS then JAPANESE_WHITE2 else JAPANESE_WHITE2_DSI) else
  if (language =? L_GERMAN) && (version =? G_BLACK) then (if ds_type =? DS_DS then GERMAN_BLACK else GERMAN_BLACK_DSI) else
  if (language =? L_GERMAN) && (version =? G_WHITE) then (if ds_type =? DS_DS then GERMAN_WHITE else GERMAN_WHITE_DSI) else
  if (language =? L_GERMAN) && (version =? G_BLACK2) then (if ds_type =? DS_DS then GERMAN_BLACK2 else GERMAN_BLACK2_DSI) else
  if (language =? L_GERMAN) && (version =? G_WHITE2) then (if ds_type =? DS_DS then GERMAN_WHITE2 else GERMAN_WHITE2_DSI) else
  if (language =? L_SPANISH) && (version =? G_BLACK) then (if ds_type =? DS_DS then SPANISH_BLACK else SPANISH_BLACK_DSI) else
  if (language =? L_SPANISH) && (version =? G_WHITE) then (if ds_type =? DS_DS then SPANISH_WHITE else SPANISH_WHITE_DSI) else
  if (language =? L_SPANISH) && (version =? G_BLACK2) then (if ds_type =? DS_DS then SPANISH_BLACK2 else SPANISH_BLACK2_DSI) else
  if (language =? L_SPANISH) && (version =? G_WHITE2) then (if ds_type =? DS_DS then SPANISH_WHITE2 else SPANISH_WHITE2_DSI) else
  if (language =? L_FRENCH) && (version =? G_BLACK) then (if ds_type =? DS_DS then FRENCH_BLACK else FRENCH_BLACK_DSI) else
  if (language =? L_FRENCH) && (version =? G_WHITE) then (if ds_type =? DS_DS then FRENCH_WHITE else FRENCH_WHITE_DSI) else
  if (language =? L_FRENCH) && (version =? G_BLACK2) then (if ds_type =? DS_DS then FRENCH_BLACK2 else FRENCH_BLACK2_DSI) else
  if (language =? L_FRENCH) && (version =? G_WHITE2) then (if ds_type =? DS_DS then FRENCH_WHITE2 else FRENCH_WHITE2_DSI) else
  if (language =? L_ITALIAN) && (version =? G_BLACK) then (if ds_type =? DS_DS then ITALIAN_BLACK else ITALIAN_BLACK_DSI) else
  if (language =? L_ITALIAN) && (version =? G_WHITE) then (if ds_type =? DS_DS then ITALIAN_WHITE else ITALIAN_WHITE_DSI) else
  if (language =? L_ITALIAN) && (version =? G_BLACK2) then (if ds_type =? DS_DS then ITALIAN_BLACK2 else ITALIAN_BLACK2_DSI) else
  if (language =? L_ITALIAN) && (version =? G_WHITE2) then (if ds_type =? DS_DS then ITALIAN_WHITE2 else ITALIAN_WHITE2_DSI) else
  if (language =? L_KOREAN) && (version =? G_BLACK) then (if ds_type =? DS_DS then KOREAN_BLACK else KOREAN_BLACK_DSI) else
  if (language =? L_KOREAN) && (version =? G_WHITE) then (if ds_type =? DS_DS then KOREAN_WHITE else KOREAN_WHITE_DSI) else
  if (language =? L_KOREAN) && (version =? G_BLACK2) then (if ds_type =? DS_DS then KOREAN_BLACK2 else KOREAN_BLACK2_DSI) else
  if (language =? L_KOREAN) && (version =? G_WHITE2) then (if ds_type =? DS_DS then KOREAN_WHITE2 else KOREAN_WHITE2_DSI) else
  repeat 0 5.

(** sha1.py:195-198, [BCD]. *)
Definition BCD : list N :=
  map (fun i => let i := N.of_nat i in N.lor (N.shiftl (i / 10) 4) (i mod 10)) (seq 0 100).

(** [~v] of a 32-bit value; under numba the value is 64-bit, but it is masked by a
    32-bit operand. *)
Definition not32 (v : N) : N := N.lxor (w32 v) 0xFFFFFFFF.

(** The sums of the rounds wrap at 32 bits in each addition without numba, and in the
    32-bit local [t_val] (or the cast) with it; here they wrap once. *)
(** sha1.py:217-234, [section1_calc]. *)
Definition section1_calc (a b c d e input : N) : N * N :=
  (w32 (rotl32 a 5 + (N.lor (N.land b c) (N.land (not32 b) d)) + e + 0x5A827999 + input), rotr32 b 2).
(** sha1.py:252-269, [section2_calc]. *)
Definition section2_calc (a b c d e input : N) : N * N :=
  (w32 (rotl32 a 5 + (N.lxor (N.lxor b c) d) + e + 0x6ED9EBA1 + input), rotr32 b 2).
(** sha1.py:287-304, [section3_calc]. *)
Definition section3_calc (a b c d e input : N) : N * N :=
  (w32 (rotl32 a 5 + (N.lor (N.land b c) (N.land (N.lor b c) d)) + e + 0x8F1BBCDC + input), rotr32 b 2).
(** sha1.py:322-339, [section4_calc]. *)
Definition section4_calc (a b c d e input : N) : N * N :=
  (w32 (rotl32 a 5 + (N.lxor (N.lxor b c) d) + e + 0xCA62C1D6 + input), rotr32 b 2).

(** Rounds read [data] only, given here as a function from indices to words. *)
(** sha1.py:493-507: the rounds of [precompute], and the alpha built from them
    (519-524). *)
Definition pre_rounds (w : nat -> N) (a b c d e : N) : list N :=
  let '(t, b) := section1_calc a b c d e (w 0%nat) in
  let '(e, a) := section1_calc t a b c d (w 1%nat) in
  let '(d, t) := section1_calc e t a b c (w 2%nat) in
  let '(c, e) := section1_calc d e t a b (w 3%nat) in
  let '(b, d) := section1_calc c d e t a (w 4%nat) in
  let '(a, c) := section1_calc b c d e t (w 5%nat) in
  let '(t, b) := section1_calc a b c d e (w 6%nat) in
  let '(e, a) := section1_calc t a b c d (w 7%nat) in
  let '(d, t) := section1_calc e t a b c (w 8%nat) in
  [d; e; t; a; b].
(** sha1.py:405-478: the rounds of [hash_seed], up to the two words that are used. *)
Definition hash_rounds (w : nat -> N) (a b c d e : N) : N * N :=
  let '(t, b) := section1_calc a b c d e (w 9%nat) in
  let '(e, a) := section1_calc t a b c d (w 10%nat) in
  let '(d, t) := section1_calc e t a b c (w 11%nat) in
  let '(c, e) := section1_calc d e t a b (w 12%nat) in
  let '(b, d) := section1_calc c d e t a (w 13%nat) in
  let '(a, c) := section1_calc b c d e t (w 14%nat) in
  let '(t, b) := section1_calc a b c d e (w 15%nat) in
  let '(e, a) := section1_calc t a b c d (w 16%nat) in
  let '(d, t) := section1_calc e t a b c (w 17%nat) in
  let '(c, e) := section1_calc d e t a b (w 18%nat) in
  let '(b, d) := section1_calc c d e t a (w 19%nat) in
  let '(a, c) := section2_calc b c d e t (w 20%nat) in
  let '(t, b) := section2_calc a b c d e (w 21%nat) in
  let '(e, a) := section2_calc t a b c d (w 22%nat) in
  let '(d, t) := section2_calc e t a b c (w 23%nat) in
  let '(c, e) := section2_calc d e t a b (w 24%nat) in
  let '(b, d) := section2_calc c d e t a (w 25%nat) in
  let '(a, c) := section2_calc b c d e t (w 26%nat) in
  let '(t, b) := section2_calc a b c d e (w 27%nat) in
  let '(e, a) := section2_calc t a b c d (w 28%nat) in
  let '(d, t) := section2_calc e t a b c (w 29%nat) in
  let '(c, e) := section2_calc d e t a b (w 30%nat) in
  let '(b, d) := section2_calc c d e t a (w 31%nat) in
  let '(a, c) := section2_calc b c d e t (w 32%nat) in
  let '(t, b) := section2_calc a b c d e (w 33%nat) in
  let '(e, a) := section2_calc t a b c d (w 34%nat) in
  let '(d, t) := section2_calc e t a b c (w 35%nat) in
  let '(c, e) := section2_calc d e t a b (w 36%nat) in
  let '(b, d) := section2_calc c d e t a (w 37%nat) in
  let '(a, c) := section2_calc b c d e t (w 38%nat) in
  let '(t, b) := section2_calc a b c d e (w 39%nat) in
  let '(e, a) := section3_calc t a b c d (w 40%nat) in
  let '(d, t) := section3_calc e t a b c (w 41%nat) in
  let '(c, e) := section3_calc d e t a b (w 42%nat) in
  let '(b, d) := section3_calc c d e t a (w 43%nat) in
  let '(a, c) := section3_calc b c d e t (w 44%nat) in
  let '(t, b) := section3_calc a b c d e (w 45%nat) in
  let '(e, a) := section3_calc t a b c d (w 46%nat) in
  let '(d, t) := section3_calc e t a b c (w 47%nat) in
  let '(c, e) := section3_calc d e t a b (w 48%nat) in
  let '(b, d) := section3_calc c d e t a (w 49%nat) in
  let '(a, c) := section3_calc b c d e t (w 50%nat) in
  let '(t, b) := section3_calc a b c d e (w 51%nat) in
  let '(e, a) := section3_calc t a b c d (w 52%nat) in
  let '(d, t) := section3_calc e t a b c (w 53%nat) in
  let '(c, e) := section3_calc d e t a b (w 54%nat) in
  let '(b, d) := section3_calc c d e t a (w 55%nat) in
  let '(a, c) := section3_calc b c d e t (w 56%nat) in
  let '(t, b) := section3_calc a b c d e (w 57%nat) in
  let '(e, a) := section3_calc t a b c d (w 58%nat) in
  let '(d, t) := section3_calc e t a b c (w 59%nat) in
  let '(c, e) := section4_calc d e t a b (w 60%nat) in
  let '(b, d) := section4_calc c d e t a (w 61%nat) in
  let '(a, c) := section4_calc b c d e t (w 62%nat) in
  let '(t, b) := section4_calc a b c d e (w 63%nat) in
  let '(e, a) := section4_calc t a b c d (w 64%nat) in
  let '(d, t) := section4_calc e t a b c (w 65%nat) in
  let '(c, e) := section4_calc d e t a b (w 66%nat) in
  let '(b, d) := section4_calc c d e t a (w 67%nat) in
  let '(a, c) := section4_calc b c d e t (w 68%nat) in
  let '(t, b) := section4_calc a b c d e (w 69%nat) in
  let '(e, a) := section4_calc t a b c d (w 70%nat) in
  let '(d, t) := section4_calc e t a b c (w 71%nat) in
  let '(c, e) := section4_calc d e t a b (w 72%nat) in
  let '(b, d) := section4_calc c d e t a (w 73%nat) in
  let '(a, c) := section4_calc b c d e t (w 74%nat) in
  let '(t, b) := section4_calc a b c d e (w 75%nat) in
  let '(e, a) := section4_calc t a b c d (w 76%nat) in
  let '(d, t) := section4_calc e t a b c (w 77%nat) in
  let '(c, e) := section4_calc d e t a b (w 78%nat) in
  let '(b, d) := section4_calc c d e t a (w 79%nat) in
  (b, c).
