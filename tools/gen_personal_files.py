"""Generate rocq/theories/Model/Pers*.v: the files of resources/bin/personal that
data/personal/__init__.py loads, as tries of 8-byte words."""
import sys

SOURCE = "/repo/numba_pokemon_prngs/resources/bin/personal/personal_"
TARGET = sys.argv[1] if len(sys.argv) > 1 else "/verif/rocq/theories/Model/"
FILES = ["rs", "e", "fr", "lg", "dp", "pt", "bw", "b2w2", "xy", "ao", "sm", "uu", "swsh", "bdsp", "la"]


def word(data, i):
    return "W " + " ".join(f"x{b:02x}" for b in data[8 * i : 8 * i + 8].ljust(8, b"\0"))


def trie(data, v, k, n):
    """The words whose numbers end in the k bits of v. Word i has number i + 1."""
    p = v + (1 << k)
    if p > n:
        return "E"
    left, right = trie(data, v, k + 1, n), trie(data, p, k + 1, n)
    w = word(data, p - 1)
    if left == "E" and right == "E":
        return f"(L ({w}))"
    return f"(T ({w})\n{left}{' ' if right == 'E' else chr(10)}{right})"


for name in FILES:
    with open(SOURCE + name, "rb") as f:
        data = f.read()
    n = (len(data) + 7) // 8
    with open(TARGET + f"Pers{name.upper()}.v", "w") as f:
        f.write(f"(** Generated by tools/gen_personal_files.py from resources/bin/personal/personal_{name}. *)\n")
        f.write("From Coq Require Import NArith Strings.Byte.\nFrom Verif Require Import Model.Trie.\n")
        f.write(f"Definition {name}_size : N := {len(data)}%N.\n")
        f.write(f"Definition {name}_trie : trie :=\n{trie(data, 0, 0, n)}.\n")
