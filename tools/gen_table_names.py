"""Generate rocq/theories/Model/TableNames.v: encounter_table_names.json of
/repo/numba_pokemon_prngs/resources/encount/la as a trie of the names."""
import json
import sys

SOURCE = "/repo/numba_pokemon_prngs/resources/encount/la/encounter_table_names.json"
TARGET = sys.argv[1] if len(sys.argv) > 1 else "/verif/rocq/theories/Model/TableNames.v"

with open(SOURCE) as f:
    pairs = json.load(f, object_pairs_hook=lambda x: x)
assert len(dict(pairs)) == len(pairs)
root = {}
for key, name in pairs:
    node = (None, root)
    for c in name:
        assert ord(c) < 128
        children = node[1]
        if c not in children:
            children[c] = [None, {}]
        node = children[c]
    assert node[0] is None
    node[0] = int(key)


def show(children):
    out, close = [], 0
    for c, (key, sub) in children.items():
        k = "None" if key is None else "(Some (W " + " ".join(f"x{b:02x}" for b in key.to_bytes(8, "little")) + "))"
        out.append(f"(C x{ord(c):02x} {k} {show(sub)}")
        close += 1
    return "\n".join(out + ["O"]) + ")" * close if out else "O"


with open(TARGET, "w") as f:
    f.write('''(** Generated by tools/gen_table_names.py from resources/encount/la/encounter_table_names.json:
    the names with their keys. *)
From Coq Require Import Strings.Byte.
From Verif Require Import Model.Trie Model.NameTrie.
Definition table_names : name_trie :=
''')
    f.write(show(root) + ".\n")
