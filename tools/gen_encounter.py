"""Writes rocq/theories/Model/EncounterData3.v from resources/txt/species_en.txt and
resources/encount/{rs,e,frlg}_wild_encounters.json."""
import json, os
ROOT = os.path.dirname(os.path.dirname(os.path.abspath(__file__)))
RES = "/repo/numba_pokemon_prngs/resources"
species = open(f"{RES}/txt/species_en.txt", encoding="utf-8-sig").read().splitlines()
names = ["SPECIES_NIDORAN_M" if n == "Nidoran♂" else "SPECIES_NIDORAN_F" if n == "Nidoran♀"
         else f"SPECIES_{n.upper()}" for n in species]

out = ['''(** Generated by tools/gen_encounter.py: CONSTANT_CASE_SPECIES_EN (data/__init__.py:9-16)
    from resources/txt/species_en.txt, and the elements of
    ["wild_encounter_groups"][0]["encounters"] of resources/encount/*.json. *)
From Coq Require Import NArith String List.
From Verif Require Import Model.Encounter3.
Import ListNotations.
Open Scope string_scope.
Open Scope N_scope.
''']
data = {f: json.load(open(f"{RES}/encount/{f}_wild_encounters.json"))["wild_encounter_groups"][0]["encounters"]
        for f in ("rs", "e", "frlg")}
used = {m["species"] for es in data.values() for e in es for k, v in e.items() if k.endswith("_mons") for m in v["mons"]}

def ident(n):
    assert n.replace("_", "").isalnum() and n.isascii(), n
    return n
for n in sorted(used):
    out.append(f'Definition {ident(n)} := "{n}".')
out.append("\nDefinition species_names : list string :=\n  [" +
           ";\n   ".join(n if n in used else '"' + n.replace('"', '""') + '"' for n in names) + "].\n")

def mons(e, key):
    if key not in e:
        return "None"
    g = e[key]
    assert set(g) == {"encounter_rate", "mons"}
    l = "; ".join(f"mkMon {m['min_level']} {m['max_level']} {m['species']}" for m in g["mons"])
    return f"(Some (mkMons {g['encounter_rate']} [{l}]))"
for f, es in data.items():
    out.append(f"(** resources/encount/{f}_wild_encounters.json *)")
    items = []
    for e in es:
        assert set(e) <= {"map", "base_label", "land_mons", "water_mons", "rock_smash_mons", "fishing_mons"}
        items.append(f'mkEnc "{e["map"]}" "{e["base_label"]}"\n     ' + "\n     ".join(
            mons(e, k) for k in ("land_mons", "water_mons", "rock_smash_mons", "fishing_mons")))
    out.append(f"Definition {f}_encounters : list encounter :=\n  [" + ";\n   ".join(items) + "].\n")
out.append("Definition bundled_files : files := mkFiles rs_encounters e_encounters frlg_encounters.")
open(f"{ROOT}/rocq/theories/Model/EncounterData3.v", "w").write("\n".join(out) + "\n")
