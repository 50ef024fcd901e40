"""Search, for each first roll of a slot and each number below 256, for a seed of the wild
generator of Generation 3 whose four rands are odd, the roll (mod 100), the number and odd;
writes rocq/theories/Proofs/LevelSeeds.v. The proofs check every entry, so nothing here is
trusted."""
ROLLS = [0, 19, 39, 49, 59, 69, 79, 84, 89, 93, 94, 97, 98]


def next_(s):
    return (0x41C64E6D * s + 0x6073) & 0xFFFFFFFF


def back(s):
    return (0xEEB9EB65 * s + 0xA3561A1) & 0xFFFFFFFF


rows = {v: [] for v in ROLLS}
for h in range(256):
    found = {}
    for x in range(65536):
        s3 = h << 16 | x
        s2 = back(s3)
        v = (s2 >> 16) % 100
        if v in rows and v not in found:
            s1 = back(s2)
            if s1 >> 16 & 1 and next_(s3) >> 16 & 1:
                found[v] = back(s1)
                if len(found) == len(ROLLS):
                    break
    for v in ROLLS:
        rows[v].append(found[v])
even = []
for v in ROLLS:
    u = 0
    while True:
        s1 = next_(u)
        if (s1 >> 16) % 100 == v and next_(next_(s1)) >> 16 & 1 == 0:
            break
        u += 1
    even.append(u)
with open("rocq/theories/Proofs/LevelSeeds.v", "w") as f:
    f.write("(** Seeds for every first roll of a slot and every number below 256; written by tools/gen_level_seeds.py. *)\n")
    f.write("From Coq Require Import NArith List.\nImport ListNotations.\nOpen Scope N_scope.\n")
    f.write("Definition level_seeds : list (list N) :=\n  [" + ";\n   ".join("[" + "; ".join(map(str, rows[v])) + "]" for v in ROLLS) + "].\n")
    f.write("(** Seeds whose first rand is the roll (mod 100) and whose third is even. *)\n")
    f.write("Definition even_seeds : list N := [" + "; ".join(map(str, even)) + "].\n")
