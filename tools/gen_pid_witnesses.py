"""Search generator states whose next PID falls in each class, and write them as
rocq/theories/Proofs/Gen3Witness.v. The classes are: nature (PID mod 25), Unown letter,
parity of the state, and low byte of the PID (below 254, 254, 255). The Coq file checks
every entry itself, so this script is not trusted."""
import os

M, A, MASK = 0x41C64E6D, 0x6073, 0xFFFFFFFF


def pid_of(t):
    a = (t * M + A) & MASK
    b = (a * M + A) & MASK
    return (a >> 16) | (b >> 16 << 16)


def letter(pid):
    return (
        ((pid & 0x3000000) >> 18) | ((pid & 0x30000) >> 12) | ((pid & 0x300) >> 6) | (pid & 3)
    ) % 28


found = {0: {}, 254: {}, 255: {}}
want = {0: 25 * 28 * 2, 254: 25 * 7 * 2, 255: 25 * 7 * 2}
t = 0
while any(len(found[c]) < want[c] for c in found):
    pid = pid_of(t)
    low = pid & 0xFF
    c = low if low >= 254 else 0
    found[c].setdefault((pid % 25, letter(pid), t & 1), t)
    t += 1

out = [
    "(** Generator states that yield a PID of every class. Written by",
    "    tools/gen_pid_witnesses.py; Proofs/Gen3Pid.v checks each entry. The lists are",
    "    indexed by nature, then Unown letter (for the low bytes 254 and 255: letter",
    "    divided by 4), and hold one even and one odd state. *)",
    "From Coq Require Import NArith List.",
    "Import ListNotations.",
    "Open Scope N_scope.",
    "",
]
for c, name in ((0, "witness_low"), (254, "witness_254"), (255, "witness_255")):
    out.append(f"Definition {name} : list (list (N * N)) :=")
    rows = []
    for n in range(25):
        letters = range(28) if c == 0 else range(c - 252, 28, 4)
        row = "; ".join(f"({found[c][(n, l, 0)]}, {found[c][(n, l, 1)]})" for l in letters)
        rows.append("   [" + row + "]")
    out.append("  [" + ";\n".join(rows).lstrip() + "].")
    out.append("")
path = os.path.join(os.path.dirname(__file__), "../rocq/theories/Proofs/Gen3Witness.v")
open(path, "w").write("\n".join(out))
print(t)
