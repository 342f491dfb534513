#!/usr/bin/env python3
"""Transcribe statusMeanings of /repo/common.go into theories/StatusTable.v."""
import re
lines=open('/repo/common.go').read().split('\n')
i=next(k for k,l in enumerate(lines) if l.startswith('var statusMeanings'))
j=next(k for k in range(i,len(lines)) if lines[k]=='}')
ents=[]
for l in lines[i+1:j]:
    m=re.match(r'^\t(\d+):\s+\{"((?:[^"\\]|\\.)*)", "(\w+)", "((?:[^"\\]|\\.)*)"\},$',l)
    assert m,l
    u=lambda s:s.replace('\\"','"')
    assert '\\' not in u(m.group(2)+m.group(4)),l
    ents.append((m.group(1),u(m.group(2)),m.group(3),u(m.group(4))))
q=lambda s:'"%s"'%s.replace('"','""')
out='''(** statusMeanings, common.go:%d-%d, transcribed by tools/gen_status.py: code,
    meaning, severity, conditions. *)
From Coq Require Import ZArith.
From Verif Require Import GoStr.
Local Open Scope Z_scope.

Definition status_meanings : list (Z * (str * str * str)) :=
  [%s].
'''%(i+1,j+1,';\n   '.join('(%s, (bs %s, bs %s, bs %s))'%(c,q(a),q(b),q(d)) for c,a,b,d in ents))
open('/verif/rocq/theories/StatusTable.v','w').write(out)
print(len(ents))
print({s:[c for c,_,b,_ in ents if b==s] for s in('INFO','WARN','ERROR')})
