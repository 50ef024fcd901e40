"""Writes rocq/theories/Proofs/FbsCase.v: small FlatBuffer files in the format of the bundled
Legends Arceus files, with two encounter tables of area 1 and the entries of their species.
Only the fields that the library reads are kept."""
import struct
D='/repo/numba_pokemon_prngs/resources/encount/la/'
def u(b,o,f): return struct.unpack_from(f,b,o)[0]
class T:
    def __init__(s,b,pos=None):
        s.b=b; s.p=u(b,0,'<I') if pos is None else pos
        s.vt=s.p-u(b,s.p,'<i'); s.vs=u(b,s.vt,'<H')
    def off(s,k):
        o=4+2*k
        return u(s.b,s.vt+o,'<H') if o<s.vs else 0
    def num(s,k,w):
        o=s.off(k); return (w,int.from_bytes(s.b[s.p+o:s.p+o+w],'little')) if o else None
    def ref(s,k):
        o=s.off(k)
        if not o: return None
        a=s.p+o; return T(s.b,a+u(s.b,a,'<I'))
    def vec(s,k):
        o=s.off(k)
        if not o: return []
        a=s.p+o; a+=u(s.b,a,'<I'); n=u(s.b,a,'<I')
        return [T(s.b,a+4+4*i+u(s.b,a+4+4*i,'<I')) for i in range(n)]
# contents: an object is a list; a field is None, (w, bits), ('ref', obj), ('vec', [obj]), ('str', bytes)
def fields(n,d):
    l=[None]*n
    for k,v in d.items(): l[k]=v
    while l and l[-1] is None: l.pop()
    return l
def nums(t,w,ks): return {k:t.num(k,w) for k in ks}
def slot(t):
    e=t.ref(45); o=t.ref(46); d=nums(t,4,[0,2,3,25,29,30,31])
    d[45]=('ref',fields(19,nums(e,4,range(7,19)))); d[46]=('ref',fields(2,nums(o,1,[0,1])))
    return fields(47,d)
ids=[0x6a6461bf28b62101,0xbca39103c9ca6d97]
enc=[t for t in T(open(D+'ha_area01_encounter.bin','rb').read()).vec(0) if t.num(0,8)[1] in ids]
species={s.num(0,4)[1] for t in enc for s in t.vec(3)}
def table(t):
    d=nums(t,8,[0]); d.update(nums(t,4,[1,2])); d[3]=('vec',[slot(s) for s in t.vec(3)])
    return fields(4,d)
plain=lambda t: t.num(1,4) in (None,(4,0))
misc=[fields(7,nums(t,4,[0,1,6])) for t in T(open(D+'poke_misc.bin','rb').read()).vec(0) if t.num(0,4)[1] in species and plain(t)]
mult=[fields(14,nums(t,4,range(14))) for t in T(open(D+'poke_encount.bin','rb').read()).vec(0) if t.num(0,4)[1] in species and plain(t)]
def build(root):
    b=bytearray(4)
    def put(at,f,x): struct.pack_into(f,b,at,x)
    def obj(o):
        while len(b)%4: b.append(0)
        vt=len(b); size=4+2*len(o)
        b.extend(bytes(size)); put(vt,'<H',size)
        while len(b)%4: b.append(0xAA)
        pos=len(b); b.extend(bytes(4)); put(pos,'<i',pos-vt)
        later=[]
        # the data of later fields first
        for k in reversed(range(len(o))):
            f=o[k]
            if f is None: continue
            put(vt+4+2*k,'<H',len(b)-pos)
            if isinstance(f[0],int): b.extend(f[1].to_bytes(f[0],'little'))
            else: later.append((len(b),f)); b.extend(bytes(4))
        put(vt+2,'<H',len(b)-pos)
        for at,f in later:
            if f[0]=='ref': put(at,'<I',obj(f[1])-at)
            else:
                while len(b)%4: b.append(0x55)
                v=len(b); put(at,'<I',v-at); b.extend(struct.pack('<I',len(f[1]))); 
                if f[0]=='str': b.extend(f[1])
                else:
                    b.extend(bytes(4*len(f[1])))
                    for i,x in enumerate(f[1]): put(v+4+4*i,'<I',obj(x)-(v+4+4*i))
        return pos
    p=obj(root); put(0,'<I',p)
    return bytes(b)
def coq(o):
    def fld(f):
        if f is None: return 'None'
        if isinstance(f[0],int): return f'Some (FScalar {f[0]} {f[1]})'
        if f[0]=='ref': return f'Some (FRef ({coq(f[1])}))'
        if f[0]=='vec': return 'Some (FVec ['+'; '.join(coq(x) for x in f[1])+'])'
        return 'Some (FStr ['+'; '.join(map(str,f[1]))+'])'
    return 'Obj ['+'; '.join(fld(f) for f in o)+']'
import textwrap
out=["(** Generated by tools/gen_fbs_case.py: small files in the format of the bundled Legends Arceus",
"    files, with two encounter tables of area 1 (resources/encount/la) and the entries of",
"    their species. *)","From Coq Require Import NArith List.","From Verif Require Import Spec.FlatbufSpec.",
"Import ListNotations.","Open Scope N_scope.",""]
def emit(name,root):
    data=build(root)
    w=lambda s: '\n'.join(textwrap.wrap(s,100,initial_indent='  ',subsequent_indent='  '))
    out.append(f"Definition {name}_bytes : list N :=\n"+w('['+'; '.join(map(str,data))+'].'))
    out.append(f"Definition {name}_root : obj :=\n"+w(coq(root)+'.'))
    out.append("")
    print(name,len(data))
emit('misc_case',[('vec',misc)]); emit('mult_case',[('vec',mult)]); emit('enc_case',[('vec',[table(t) for t in enc])])
emit('str_case',[(4,7),None,('str',b'Kamado'),('ref',[(4,0x3f800000),(4,0xc0000000),(4,0)])])
open('/verif/rocq/theories/Proofs/FbsCase.v','w').write('\n'.join(out))
