"""Writes rocq/theories/Model/PersonalLayouts.v from data/personal/personal_info.py.
The Python file is read as text."""
import os, re
ROOT = os.path.dirname(os.path.dirname(os.path.abspath(__file__)))
REPO = "/repo/numba_pokemon_prngs"
src = open(f"{REPO}/data/personal/personal_info.py").read().split("\n")

out = ['''(** Generated by tools/gen_personal.py from
    numba_pokemon_prngs/data/personal/personal_info.py: the field lists of the
    [dtype_dataclass] records, and the sizes asserted below them. *)
From Coq Require Import String List.
From Verif Require Import Model.Personal.
Import ListNotations.
Open Scope string_scope.
''']
i = 0
names = []
while i < len(src):
    m = re.match(r"class (PersonalInfo\w+):", src[i])
    if m and src[i - 1].startswith("@dtype_dataclass"):
        name = m.group(1)
        first = i + 1
        fields = []
        j = i + 1
        while not src[j].startswith("PersonalInfo"):
            f = re.match(r"    (\w+): (U8|U16|unused_bytes\((\d+)\))", src[j])
            if f:
                t = f.group(2) if f.group(3) is None else f"(Bytes {f.group(3)})"
                fields.append(f'("{f.group(1)}", {t})')
                last = j + 1
            j += 1
        while not src[j].startswith("assert"):
            j += 1
        size = int(re.search(r"== (0x\w+)", src[j]).group(1), 16)
        lines, cur = [], "  ["
        for k, f in enumerate(fields):
            item = f + ("; " if k + 1 < len(fields) else "]")
            if len(cur) + len(item) > 92:
                lines.append(cur.rstrip())
                cur = "   "
            cur += item
        lines.append(cur)
        out.append(f"(** personal_info.py:{first}-{last}; the assertion is line {j+1}. *)")
        out.append(f"Definition {name} : layout :=\n" + "\n".join(lines) + ".")
        out.append(f"Definition {name}_size : nat := {size}.\n")
        names.append(name)
        i = j
    i += 1
out.append("(** All record types with their asserted sizes. *)")
out.append("Definition record_types : list (layout * nat) :=\n  [" +
           ";\n   ".join(f"({n}, {n}_size)" for n in names) + "].")
open(f"{ROOT}/rocq/theories/Model/PersonalLayouts.v", "w").write("\n".join(out) + "\n")
