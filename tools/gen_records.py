#!/usr/bin/env python3
"""Transcribe the structs of /repo into Coq records (theories/Records.v)."""
from gostructs import *
st=load(); va=variants()
LISTS={'PositionList':'list Position','OOList':'list OpenOrder','MessageSetList':'list MessageSet'}
IF=list(va)
def coqbase(t):
    if t in SCALARS:
        return {'int_':'Z','amount':'Q'}.get(SCALARS[t][0],SCALARS[t][0])
    if t in ENUMS: return 'N'
    if t in LISTS: return LISTS[t]
    return t
def deps(t):
    if t in SCALARS or t in ENUMS: return []
    if t=='PositionList': return ['Position']
    if t=='OOList': return ['OpenOrder']
    if t=='MessageSetList': return ['MessageSet']
    return [t]
order=[]; seen=set()
def visit(n):
    if n in seen: return
    seen.add(n)
    if n in st:
        for f in st[n].fields:
            for d in deps(f.base): visit(d)
    else:
        for _,t in va[n]['unmarshal']:
            if n=='InvTransaction' and t in('Date','InvBankTransaction'): continue
            visit(t)
    order.append(n)
for n in st: visit(n)
def typ(f):
    b=coqbase(f.base)
    if f.card=='Ptr': return 'option '+b
    if f.card=='Slice': return 'list '+b
    return b
def alts(n):
    return [(a,t) for a,t in va[n]['unmarshal'] if not(n=='InvTransaction' and t in('Date','InvBankTransaction'))]
if __name__=='__main__':
    out=['''(** The structs of /repo as records, transcribed by tools/gen_records.py.
    Fields are in the order of the Go struct; a pointer is an [option], a slice a
    [list], an interface the sum of the types that implement it in the library.
    Int is [Z], Amount [Q], Date [gotime], String, UID, CurrSymbol and string are
    [str], Boolean is [bool], an enumeration is [N] (see Enums.v).

    Simplification: the XMLName fields are left out. They hold no data of their
    own: encoding/xml writes the tag's name or, for the structs whose XMLName
    has no tag, the name of the field that holds the struct, which is also what
    decoding stores there. *)
From Coq Require Import QArith.
From Verif Require Import GoStr GoTime.
''']
    for n in order:
        if n in st:
            s=st[n]
            out.append('(** %s:%d-%d *)'%(s.file,s.lo,s.hi))
            out.append('Record %s := mk%s {\n  %s\n}.\n'%(n,n,';\n  '.join('%s_%s : %s'%(n,f.name,typ(f)) for f in s.fields)))
        else:
            v=va[n]
            out.append('(** The types that satisfy the interface %s, %s:%d-%d *)'%(n,v['file'],v['ulines'][0],v['ulines'][1]))
            out.append('Inductive %s :=\n%s.\n'%(n,'\n'.join('| %s_%s (x : %s)'%(n,t,t) for a,t in alts(n))))
    open('/verif/rocq/theories/Records.v','w').write('\n'.join(out))
