"""Search, for each way the rands are used, each first roll of a slot, each nature, each end
of the low byte of the PID (below 31, at least 225) and each lowest bit, for a seed of the
wild generator of Generation 3 whose first PID has the nature; writes
rocq/theories/Proofs/KindSeeds.v. The proofs check every entry, so nothing here is trusted."""
MODES = [(1, 2, 3), (1, 3, 4), (1, 4, 5), (2, 1, 4), (2, 1, 5)]
ROLLS = [0, 19, 39, 49, 59, 69, 79, 84, 89, 93, 94, 97, 98]
rows = {(m, v): [[None] * 4 for _ in range(25)] for m in MODES for v in ROLLS}
left, z = len(rows) * 100, 0
while left:
    z = (z + 0x9E3779B1) & 0xFFFFFFFF  # visits every state
    lo = (0x41C64E6D * z + 0x6073) & 0xFFFFFFFF
    low = lo >> 16 & 0xFF
    if 31 <= low < 225:
        continue
    hi = (0x41C64E6D * lo + 0x6073) >> 16 & 0xFFFF
    n = (z >> 16) % 25
    if ((lo >> 16) + (hi << 16)) % 25 != n:
        continue
    kind = (2 if low >= 225 else 0) + (low & 1)
    states = [z]
    for _ in range(5):
        states.append((0xEEB9EB65 * states[-1] + 0xA3561A1) & 0xFFFFFFFF)
    for m in MODES:
        row = rows.get((m, (states[m[2] - m[0]] >> 16) % 100))
        if row and states[m[2] - m[1]] >> 16 & 1 and row[n][kind] is None:
            row[n][kind] = states[m[2]]
            left -= 1


def show(x):
    return "[" + "; ".join(map(show, x)) + "]" if isinstance(x, list) else str(x)


with open("rocq/theories/Proofs/KindSeeds.v", "w") as f:
    f.write("(** Seeds for every first roll of a slot, nature, end of the low byte of the PID and lowest bit; written by\n    tools/gen_kind_seeds.py. *)\n")
    f.write("From Coq Require Import NArith List.\nImport ListNotations.\nOpen Scope N_scope.\n")
    f.write("Definition kind_seeds : list (list (list (list N))) :=\n  [" + ";\n   ".join(
        "[" + ";\n    ".join(show(rows[m, v]) for v in ROLLS) + "]" for m in MODES) + "].\n")
