"""Writes rocq/theories/Model/TextData.v from resources/txt/*.txt."""
import os
ROOT = os.path.dirname(os.path.dirname(os.path.abspath(__file__)))
RES = "/repo/numba_pokemon_prngs/resources/txt"
out = ['''(** Generated by tools/gen_text.py: the tuples of data/__init__.py:6-8 and 18-28, from
    resources/txt/*.txt. The strings are the UTF-8 bytes of the names. *)
From Coq Require Import String List.
Import ListNotations.
Open Scope string_scope.
''']
for name, file, enc in (("SPECIES_EN", "species_en", "utf-8-sig"), ("ABILITIES_EN", "abilities_en", "utf-8"),
                        ("NATURES_EN", "natures_en", "utf-8"), ("TYPES_EN", "types_en", "utf-8")):
    lines = open(f"{RES}/{file}.txt", encoding=enc).read().splitlines()
    out.append(f"Definition {name} : list string :=\n  [" +
               ";\n   ".join('"' + l.replace('"', '""') + '"' for l in lines) + "].\n")
with open(f"{ROOT}/rocq/theories/Model/TextData.v", "w", encoding="utf-8") as f:
    f.write("\n".join(out))
