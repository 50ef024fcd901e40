"""Search, for each way the rands are used, each first roll of a slot and each nature, for a
seed of the wild generator of Generation 3; writes rocq/theories/Proofs/NatureSeeds.v.
The proofs check every entry, so nothing here is trusted."""
MODES = [(1, 2, 3), (1, 3, 4), (1, 4, 5), (2, 1, 4), (2, 1, 5)]
ROLLS = [0, 19, 39, 49, 59, 69, 79, 84, 89, 93, 94, 97, 98]
rows = {(m, v): [None] * 25 for m in MODES for v in ROLLS}
left, u = len(rows) * 25, 0
while left:
    s, r = u, [0]
    for _ in range(5):
        s = (0x41C64E6D * s + 0x6073) & 0xFFFFFFFF
        r.append(s >> 16)
    for m in MODES:
        row = rows.get((m, r[m[0]] % 100))
        if row and r[m[1]] & 1 and row[r[m[2]] % 25] is None:
            row[r[m[2]] % 25] = u
            left -= 1
    u += 1
# Rock Smash of Ruby, Sapphire and Emerald: the first rand decides on the encounter.
ROCK_MODES = [(a + 1, b + 1, c + 1) for a, b, c in MODES]
ROCK_ROLLS = [0, 59, 89, 94, 98]
rock = {(m, v): [None] * 25 for m in ROCK_MODES for v in ROCK_ROLLS}
left, u = len(rock) * 25, 0
while left:
    s, r = (0x41C64E6D * u + 0x6073) & 0xFFFFFFFF, [0]
    if (s >> 16) % 2880 < 16:
        r.append(s >> 16)
        for _ in range(5):
            s = (0x41C64E6D * s + 0x6073) & 0xFFFFFFFF
            r.append(s >> 16)
        for m in ROCK_MODES:
            row = rock.get((m, r[m[0]] % 100))
            if row and r[m[1]] & 1 and row[r[m[2]] % 25] is None:
                row[r[m[2]] % 25] = u
                left -= 1
    u += 1


def modes(name, ms):
    return "Definition %s : list (nat * nat * nat) := [%s].\n" % (name, "; ".join("(%d, %d, %d)%%nat" % (a - 1, b - 1, c - 1) for a, b, c in ms))


def table(name, rows, ms, vs):
    return "Definition %s : list (list (list N)) :=\n  [" % name + ";\n   ".join(
        "[" + ";\n    ".join("[" + "; ".join(map(str, rows[m, v])) + "]" for v in vs) + "]" for m in ms) + "].\n"


with open("rocq/theories/Proofs/NatureSeeds.v", "w") as f:
    f.write("(** Seeds for every first roll of a slot and every nature; written by tools/gen_nature_seeds.py. *)\n")
    f.write("From Coq Require Import NArith List.\nImport ListNotations.\nOpen Scope N_scope.\n")
    f.write("(** Which rand chooses the slot, which one is odd and which one chooses the nature. *)\n")
    f.write(modes("nature_modes", MODES))
    f.write("Definition slot_rolls : list N := [" + "; ".join(map(str, ROLLS)) + "].\n")
    f.write(table("nature_seeds", rows, MODES, ROLLS))
    f.write("(** The same with a first rand that gives an encounter whatever the rate of Rock Smash, but 0. *)\n")
    f.write(modes("rock_modes", ROCK_MODES))
    f.write("Definition rock_rolls : list N := [" + "; ".join(map(str, ROCK_ROLLS)) + "].\n")
    f.write(table("rock_seeds", rock, ROCK_MODES, ROCK_ROLLS))
