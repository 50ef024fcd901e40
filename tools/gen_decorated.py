"""Writes rocq/theories/Model/Decorated.v: every use of optional_njit and optional_jitclass in
the package, read from the source text."""
import ast,os
R='/repo/numba_pokemon_prngs'
rows=[]
def name(n): return n.id if isinstance(n,ast.Name) else None
for d,_,fs in sorted(os.walk(R)):
    for f in sorted(fs):
        if not f.endswith('.py'): continue
        path=os.path.join(d,f); rel=os.path.relpath(path,R)
        tree=ast.parse(open(path).read())
        for n in ast.walk(tree):
            if isinstance(n,(ast.FunctionDef,ast.ClassDef)):
                for dec in n.decorator_list:
                    call=isinstance(dec,ast.Call); t=name(dec.func if call else dec)
                    if t in('optional_njit','optional_jitclass'):
                        if isinstance(n,ast.FunctionDef): ar=len(n.args.args)
                        else:
                            init=[m for m in n.body if isinstance(m,ast.FunctionDef) and m.name=='__init__']
                            ar=len(init[0].args.args)-1 if init else 0
                        kind={('optional_njit',False):'Bare_njit',('optional_njit',True):'Called_njit',('optional_jitclass',False):'Bare_jitclass',('optional_jitclass',True):'Called_jitclass'}[t,call]
                        rows.append((rel,dec.lineno,n.name,kind,ar))
            # name = optional_jitclass(cls)
            if isinstance(n,ast.Assign) and isinstance(n.value,ast.Call) and name(n.value.func)=='optional_jitclass':
                rows.append((rel,n.lineno,name(n.targets[0]),'Bare_jitclass',1))
rows.sort()
out=["(** Generated by tools/gen_decorated.py: every function and class of numba_pokemon_prngs that",
"    optional_njit or optional_jitclass decorates, how, and the number of its parameters. *)",
"From Coq Require Import NArith String List.","From Verif Require Import Model.Compilation.",
"Import ListNotations.","Open Scope string_scope.","","Definition decorated : list (string * string * use * nat) :=","  ["]
out.append(';\n'.join(f'   (* {r[0]}:{r[1]} *) ("{r[0]}", "{r[2]}", {r[3]}, {r[4]}%nat)' for r in rows))
out.append("  ].")
open('/verif/rocq/theories/Model/Decorated.v','w').write('\n'.join(out)+'\n')
print(len(rows),[r for r in rows if r[3]=='Bare_njit'])
