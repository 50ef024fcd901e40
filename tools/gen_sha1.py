"""Writes rocq/theories/Model/SHA1.v from sha1.py: the straight-line parts (nazo table,
get_nazo, the round chains) are transcribed line by line."""
import re, sys, os
SRC = "/repo/numba_pokemon_prngs/sha1.py"
OUT = os.path.join(os.path.dirname(os.path.dirname(os.path.abspath(__file__))), "rocq/theories/Model/SHA1.v")
src = open(SRC).read().split("\n")
def loc(pred, start=0):
    for i in range(start, len(src)):
        if pred(src[i]): return i
    raise SystemExit("not found")
out = []
w = out.append
w('''(** numba_pokemon_prngs/sha1.py. The nazo table, [get_nazo] and the round chains are
    transcribed by tools/gen_sha1.py. [data] is a list of 80 words. *)
From Coq Require Import NArith List Bool.
From Verif Require Import Base.Word Model.Util Model.Lcrng64 Model.LcrngClasses.
Import ListNotations.
Open Scope N_scope.

(** rotate_left_u32 and rotate_right_u32 (util.py:16-29) for the counts 1, 2, 5 used
    here, which are in the defined range of both modes. *)
Definition rotl32 (val count : N) : N := rotl32_raw (w32 val) count (32 - count).
Definition rotr32 (val count : N) : N := rotr32_raw (w32 val) count (32 - count).

(** sha1.py:20-32, [compute_nazo_bw]. *)
Definition compute_nazo_bw (input_nazo : N) : list N :=
  let input_nazo := w32 input_nazo in
  let n1 := change_endian_u32 (w32 (input_nazo + 0xFC)) in
  let n3 := change_endian_u32 (w32 (w32 (input_nazo + 0xFC) + 0x4C)) in
  [change_endian_u32 input_nazo; n1; n1; n3; n3].
(** sha1.py:35-49, [compute_nazo_bw2]. *)
Definition compute_nazo_bw2 (input_nazo input_nazo0 input_nazo1 : N) : list N :=
  let input_nazo := w32 input_nazo in
  let input_nazo0 := w32 input_nazo0 in
  let input_nazo1 := w32 input_nazo1 in
  let n3 := change_endian_u32 (w32 (input_nazo + 0x54)) in
  [change_endian_u32 input_nazo0; change_endian_u32 input_nazo1; change_endian_u32 input_nazo; n3; n3].
''')
first = loc(lambda l: l.startswith("ENGLISH_BLACK ="))
last = loc(lambda l: l.startswith("KOREAN_WHITE2_DSI ="))
w(f"(** sha1.py:{first+1}-{last+1} *)")
for l in src[first:last+1]:
    if not l.strip(): continue
    m = re.match(r"(\w+) = (compute_nazo_bw2?)\((.*)\)$", l)
    w(f"Definition {m[1]} : list N := {m[2]} {m[3].replace(',', '')}.")
w("")
# enums
w('''(** enums/game.py:21-24, enums/language.py:8-14, enums/ds_type.py:9-11: the members
    that occur here. *)
Definition G_BLACK : N := 4096.
Definition G_WHITE : N := 8192.
Definition G_BLACK2 : N := 16384.
Definition G_WHITE2 : N := 32768.
Definition L_ENGLISH : N := 0.
Definition L_FRENCH : N := 1.
Definition L_GERMAN : N := 2.
Definition L_ITALIAN : N := 3.
Definition L_JAPANESE : N := 4.
Definition L_KOREAN : N := 5.
Definition L_SPANISH : N := 6.
Definition DS_DS : N := 0.
Definition DS_DSI : N := 1.
Definition DS_DS3 : N := 2.
''')
g0 = loc(lambda l: l.startswith("def get_nazo("))
g1 = loc(lambda l: "return np.zeros(5" in l, g0)
w(f"(** sha1.py:{g0-2}-{g1+1}, [get_nazo]. A language with no matching version falls through to\n    the next test, which fails, so the result is zeros. *)")
w("Definition get_nazo (version language ds_type : N) : list N :=")
lang = None
closes = 0
ret = "repeat 0 5"
body = []
for l in src[g0:g1+1]:
    m = re.match(r"    if language == Language\.(\w+):", l)
    if m:
        lang = m[1]; continue
    m = re.match(r"        if version == Game\.(\w+):", l)
    if m:
        ver = m[1]; continue
    m = re.match(r"            return (\w+) if ds_type == DSType\.DS else (\w+)", l)
    if m:
        body.append(f"  if (language =? L_{lang}) && (version =? G_{ver}) then (if ds_type =? DS_DS then {m[1]} else {m[2]}) else")
for b in body: w(b)
w("  repeat 0 5.\n")
b0 = loc(lambda l: l.startswith("BCD = "))
w(f"(** sha1.py:{b0+1}-{b0+4}, [BCD]. *)")
w("Definition BCD : list N :=\n  map (fun i => let i := N.of_nat i in N.lor (N.shiftl (i / 10) 4) (i mod 10)) (seq 0 100).\n")
w('''(** [~v] of a 32-bit value; under numba the value is 64-bit, but it is masked by a
    32-bit operand. *)
Definition not32 (v : N) : N := N.lxor (w32 v) 0xFFFFFFFF.

(** The sums of the rounds wrap at 32 bits in each addition without numba, and in the
    32-bit local [t_val] (or the cast) with it; here they wrap once. *)''')
secs = {1: ("N.lor (N.land b c) (N.land (not32 b) d)", "0x5A827999"),
        2: ("N.lxor (N.lxor b c) d", "0x6ED9EBA1"),
        3: ("N.lor (N.land b c) (N.land (N.lor b c) d)", "0x8F1BBCDC"),
        4: ("N.lxor (N.lxor b c) d", "0xCA62C1D6")}
for k, (f, c) in secs.items():
    i = loc(lambda l: l.startswith(f"def section{k}_calc("))
    j = loc(lambda l: l.startswith("    return t_val"), i)
    # check the source says what we transcribe
    txt = " ".join(x.strip() for x in src[i:j+1])
    py = {1: "((b_val & c_val) | (~b_val & d_val))", 2: "(b_val ^ c_val ^ d_val)",
          3: "((b_val & c_val) | ((b_val | c_val) & d_val))", 4: "(b_val ^ c_val ^ d_val)"}[k]
    assert py in txt and c in txt and "rotate_left_u32(a_val, 5)" in txt and "rotate_right_u32(b_val, 2)" in txt
    w(f"(** sha1.py:{i+1}-{j+1}, [section{k}_calc]. *)")
    w(f"Definition section{k}_calc (a b c d e input : N) : N * N :=")
    w(f"  (w32 (rotl32 a 5 + ({f}) + e + {c} + input), rotr32 b 2).")
w("")
def chain(name_start, sig, lo, hi, result):
    w(sig)
    for l in src[lo:hi]:
        m = re.match(r"        (\w)_val, (\w)_val = (section\d_calc)\((.*)\)$", l)
        if not m: continue
        args = [a.strip() for a in m[4].split(",")]
        vs = " ".join(a[0] for a in args[:5])
        d = re.match(r"data\[(\d+)\]", args[5])[1]
        w(f"  let '({m[1]}, {m[2]}) := {m[3]} {vs} (w {d}%nat) in")
    w(f"  {result}.")
p0 = loc(lambda l: l.startswith("    def precompute"))
p1 = loc(lambda l: "self.calc_w(16)" in l, p0)
w('''(** Rounds read [data] only, given here as a function from indices to words. *)''')
w(f"(** sha1.py:{p0+5}-{p1-1}: the rounds of [precompute], and the alpha built from them\n    ({p1+11}-{p1+16}). *)")
chain(None, "Definition pre_rounds (w : nat -> N) (a b c d e : N) : list N :=", p0, p1, "[d; e; t; a; b]")
h0 = loc(lambda l: l.startswith("    def hash_seed"))
h1 = loc(lambda l: "part1 =" in l, h0)
r0 = loc(lambda l: "section1_calc" in l, h0)
w(f"(** sha1.py:{r0+1}-{h1-1}: the rounds of [hash_seed], up to the two words that are used. *)")
chain(None, "Definition hash_rounds (w : nat -> N) (a b c d e : N) : N * N :=", r0, h1, "(b, c)")
open(OUT, "w").write("\n".join(out) + "\n")
cw0 = loc(lambda l: l.startswith("    def calc_w("))
cs0 = loc(lambda l: l.startswith("    def calc_w_simd("))
i0 = loc(lambda l: l.startswith("class SHA1"))
print("class", i0+1, "hash", h0+1, h1+1, "pre", p0+1, p1+1, "calc", cw0+1, cs0+1, "end", len(src))
