#!/usr/bin/env python3
"""Transcribe the enumeration tables of /repo/constants.go into Coq
(theories/EnumTables.v). Everything else about enumerations is in Enums.v."""
import re
src=open('/repo/constants.go').read()
lines=src.split('\n')
out=['''(** The enumeration tables of /repo/constants.go, transcribed by
    tools/gen_enums.py: for each type the value of the first and last constant
    used by its Valid method and the array of names. *)
From Verif Require Import GoStr Enums.
Local Open Scope N_scope.
''']
names=[]
template=None
def normalise(body,t,first,last):
    """The methods of a type with its own names abstracted away."""
    code=body[body.index('func (e %s) Valid'%t):].strip()
    up=t[0].upper()+t[1:]
    code=re.sub(r'\b(%s|%s)\b'%(first,last),lambda m:'FIRST' if m.group(1)==first else 'LAST',code)
    code=re.sub(r'\bNew%s\b'%up,'NewT',code)
    code=re.sub(r'\b%ss\b'%t,'ARR',code)
    code=re.sub(r'\b%s\b'%t,'T',code)
    code=re.sub(r'\b%s\b'%up,'T',code)
    return re.sub(r'^//.*\n','',code,flags=re.M)
for m in re.finditer(r'^type (\w+) uint$',src,re.M):
    t=m.group(1)
    ln=src[:m.start()].count('\n')+1
    rest=src[m.end():]
    nxt=re.search(r'^type (\w+) uint$',rest,re.M)
    body=rest[:nxt.start()] if nxt else rest
    endln=ln+body.rstrip().count('\n')
    cm=re.search(r'const \((.*?)\n\)',body,re.S)
    consts=[]
    for l in cm.group(1).strip().split('\n'):
        l=l.strip()
        if '=' in l:
            assert re.match(r'\w+ %s = 1 \+ iota$'%t,l),l
        consts.append(l.split()[0])
    vm=re.search(r'var (\w+) = \[\.\.\.\]string\{(.*)\}',body)
    vals=re.findall(r'"([^"]*)"',vm.group(2))
    assert vm.group(1)==t+'s'
    vl=re.search(r'return e >= (\w+) && e <= (\w+)',body)
    lo=consts.index(vl.group(1))+1; hi=consts.index(vl.group(2))+1
    arrln=src[:m.end()+vm.start()].count('\n')+1
    names.append((t,consts))
    code=normalise(body,t,vl.group(1),vl.group(2))
    if template is None: template=code
    assert code==template,(t,code)
    assert len(consts)==len(vals)
    nm='enum_'+t
    out.append('(** %s, constants.go:%d-%d; names at line %d. *)'%(t,ln,endln,arrln))
    out.append('Definition %s : enum := mkEnum (bs "%s") %d %d\n  (map bs [%s]%%string).\n'%(nm,t,lo,hi,'; '.join('"%s"'%v for v in vals)))
out.append('(** All enumeration types of constants.go, in file order. *)')
out.append('Definition all_enums : list enum :=\n  [%s].\n'%';\n   '.join('enum_'+t for t,_ in names))
out.append('(** For each type its name and the Go identifiers of its constants, in order of')
out.append('    value (1, 2, ...). *)')
out.append('Definition enum_idents : list (enum * (str * list str)) :=\n  [%s].\n'%';\n   '.join('(enum_%s, (bs "%s", map bs [%s]%%string))'%(t,t[0].upper()+t[1:],'; '.join('"%s"'%c for c in cs)) for t,cs in names))
out.append('(** The constants the rest of the code refers to by name. *)')
for t,consts in names:
    if t in('ofxVersion','trnType'):
        for k,c in enumerate(consts):
            out.append('Definition %s : N := %d.'%(c,k+1))
open('/verif/rocq/theories/EnumTables.v','w').write('\n'.join(out)+'\n')
print(len(names))
