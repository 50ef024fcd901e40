"""Generate rocq/theories/Model/LaBytes*.v, LaSpawn*.v and LaOutbreak*.v: the Legends Arceus files of
/repo/numba_pokemon_prngs/resources/encount/la as tries of 8-byte words."""
import sys

SOURCE = "/repo/numba_pokemon_prngs/resources/encount/la/"
TARGET = sys.argv[1] if len(sys.argv) > 1 else "/verif/rocq/theories/Model/"
FILES = [(f"ha_area{k:02d}_encounter.bin", f"LaBytes{k}", f"area_{k}") for k in range(1, 6)]
FILES += [("poke_encount.bin", "LaBytesEncount", "poke_encount"), ("poke_misc.bin", "LaBytesMisc", "poke_misc")]
FILES += [(f"ha_area{k:02d}_spawner.bin", f"LaSpawn{k}", f"spawner_{k}") for k in range(1, 6)]
FILES += [("new_huge_outbreak_group.bin", "LaOutbreakGroup", "outbreak_group"),
          ("new_huge_outbreak_group_lottery.bin", "LaOutbreakLottery", "outbreak_lottery")]


def word(data, i):
    return "W " + " ".join(f"x{b:02x}" for b in data[8 * i : 8 * i + 8].ljust(8, b"\0"))


def trie(data, v, k, n):
    """The words whose numbers end in the k bits of v. Word i has number i + 1."""
    p = v + (1 << k)
    if p > n:
        return "E"
    left, right = trie(data, v, k + 1, n), trie(data, p, k + 1, n)
    w = word(data, p - 1)
    if left == "E" and right == "E":
        return f"(L ({w}))"
    return f"(T ({w})\n{left}{' ' if right == 'E' else chr(10)}{right})"


for name, module, ident in FILES:
    with open(SOURCE + name, "rb") as f:
        data = f.read()
    n = (len(data) + 7) // 8
    with open(TARGET + module + ".v", "w") as f:
        f.write(f"(** Generated by tools/gen_la.py from resources/encount/la/{name}. *)\n")
        f.write("From Coq Require Import NArith Strings.Byte.\nFrom Verif Require Import Model.Trie.\n")
        f.write(f"Definition {ident}_size : N := {len(data)}%N.\n")
        f.write(f"Definition {ident}_trie : trie :=\n{trie(data, 0, 0, n)}.\n")
