"""Writes rocq/theories/Model/Enums.v: the members of the enums of /repo, in order."""
import ast, os, re
R = "/repo/numba_pokemon_prngs/enums/"
out = ['''(** Model of numba_pokemon_prngs/enums/: the members of each IntEnum with their values, in the order
    of the class bodies (written by tools/gen_enums.py). *)
From Coq Require Import NArith String List.
Import ListNotations.
Open Scope N_scope.
Open Scope string_scope.
''']
FILES = ["game", "encounter", "lead", "method", "language", "ds_type", "la_area", "la_time", "la_weather"]
classes = []
for f in FILES:
    src = open(R + f + ".py").read()
    cls = next(n for n in ast.parse(src).body if isinstance(n, ast.ClassDef))
    env, rows, lines = {}, [], []
    for s in cls.body:
        if isinstance(s, ast.Assign):
            v = eval(compile(ast.Expression(s.value), f, "eval"), {}, env)
            env[s.targets[0].id] = v
            rows.append((s.targets[0].id, v)); lines.append(s.lineno)
    classes.append(cls.name)
    out.append(f"(** enums/{f}.py:{min(lines)}-{max(lines)}. *)")
    body, cur = [], "  ["
    for i, (n, v) in enumerate(rows):
        t = f'("{n}", {v})' + ("; " if i + 1 < len(rows) else "].")
        if len(cur) + len(t) > 100: body.append(cur.rstrip()); cur = "   "
        cur += t
    body.append(cur)
    out.append(f"Definition {cls.name} : list (string * N) :=\n" + "\n".join(body) + "\n")
out.append('''(** An IntEnum: the value of a name, and the member of a value, [Enum(value)]. A later name with the
    value of an earlier one is an alias of the earlier member; a value that no member has raises
    ValueError (here [None]). *)
Definition value_of (e : list (string * N)) (name : string) : option N :=
  option_map snd (find (fun m => String.eqb (fst m) name) e).
Definition member_of (e : list (string * N)) (value : N) : option string :=
  option_map fst (find (fun m => (snd m =? value)%N) e).
''')
open(os.path.join(os.path.dirname(__file__), "../rocq/theories/Model/Enums.v"), "w").write("\n".join(out))
