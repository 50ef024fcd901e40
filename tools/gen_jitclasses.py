"""Writes rocq/theories/Model/JitClasses.v: every class of the package that optional_jitclass
compiles, with the annotations of its bodies and the attributes its methods use, read from the
source text."""
import ast,os
R='/repo/numba_pokemon_prngs'
DT={'uint8':'U8','uint16':'U16','uint32':'U32','uint64':'U64','bool_':'Bool_'}
mods={}
for d,_,fs in sorted(os.walk(R)):
    for f in sorted(fs):
        if f.endswith('.py'):
            p=os.path.join(d,f); mods[os.path.relpath(p,R)]=ast.parse(open(p).read())
def np_name(n): return n.attr if isinstance(n,ast.Attribute) and isinstance(n.value,ast.Name) and n.value.id=='np' else None
def dtype(n):
    if np_name(n): return DT[np_name(n)]
    if isinstance(n,ast.Attribute) and n.attr=='dtype': return f'(Record_ "{n.value.id}")'
    raise SystemExit(ast.dump(n))
def hint(n):
    if np_name(n): return f'Np_dtype {DT[np_name(n)]}'
    if isinstance(n,ast.Call) and n.func.id=='array_type' and len(n.args)==1 and not n.keywords:
        return f'array_type {dtype(n.args[0])}'
    raise SystemExit(ast.dump(n))
classes={}   # name -> (file, node)
for f,t in mods.items():
    for n in t.body:
        if isinstance(n,ast.ClassDef): classes[n.name]=(f,n)
def mro(n):
    out=[n.name]
    for b in n.bases:
        out+=mro(classes[b.id][1])
    return out
def own(name):
    return [(s.target.id,hint(s.annotation)) for s in classes[name][1].body if isinstance(s,ast.AnnAssign)]
def used(node,methods):
    u=[]
    for n in ast.walk(node):
        if isinstance(n,ast.Attribute) and isinstance(n.value,ast.Name) and n.value.id=='self' and n.attr not in methods and n.attr not in u: u.append(n.attr)
    return u
def decorated(n):
    for d in n.decorator_list:
        x=d.func if isinstance(d,ast.Call) else d
        if isinstance(x,ast.Name) and x.id in('optional_jitclass','lcrng32_init','lcrng64_init'): return x.id
rows=[]
for name,(f,n) in sorted(classes.items(),key=lambda x:(x[1][0],x[1][1].lineno)):
    dec=decorated(n)
    if not dec: continue
    m=mro(n); nodes=[classes[c][1] for c in m]
    methods={x.name for k in nodes for x in k.body if isinstance(x,ast.FunctionDef)}
    u=[]
    for k in nodes: u+=[x for x in used(k,methods) if x not in u]
    if dec!='optional_jitclass':   # methods are set by lcrng32.py and lcrng64.py
        u+=[x for x in used([g for g in mods[f'lcrng/{dec[:7]}.py'].body if isinstance(g,ast.FunctionDef) and g.name==dec][0],methods) if x not in u]
    rows.append((f,n.lineno,name,[(c,own(c)) for c in m],u))
q=lambda s:f'"{s}"'
out=["(** Generated by tools/gen_jitclasses.py: every class of numba_pokemon_prngs that",
"    optional_jitclass compiles by its annotations (all but rng_list.py:53): the annotations in the bodies of the class",
"    and of its bases, and the attributes that the methods read or assign. *)",
"From Coq Require Import String List.","From Verif Require Import Model.JitSpec.",
"Import ListNotations.","Open Scope string_scope.","","Definition jitclasses : list (string * pyclass * list string) :=","  ["]
ent=[]
for f,l,name,m,u in rows:
    bodies='; '.join('['+'; '.join(f'({q(a)}, {h})' for a,h in hs)+']' for c,hs in m)
    ent.append(f'   (* {f}:{l} *) ({q(name)}, [{bodies}], [{"; ".join(map(q,u))}])')
out.append(';\n'.join(ent)); out.append("  ].")
open('/verif/rocq/theories/Model/JitClasses.v','w').write('\n'.join(out)+'\n')
print(len(rows))
