#!/usr/bin/env python3
"""Transcribe ofxLeafElements of /repo/leaf_elements.go into theories/Leaves.v."""
import re
lines=open('/repo/leaf_elements.go').read().split('\n')
i=next(k for k,l in enumerate(lines) if l.startswith('var ofxLeafElements'))
j=next(k for k in range(i,len(lines)) if lines[k]=='}')
names=[]
for l in lines[i+1:j]:
    m=re.match(r'^\t"([A-Z0-9]+)",$',l)
    assert m,l
    names.append(m.group(1))
out=[]; row='  ['
for n in names:
    item='"%s"'%n+('; ' if n!=names[-1] else ']')
    if len(row+item)>96: out.append(row.rstrip()); row='   '
    row+=item
out.append(row)
open('/verif/rocq/theories/Leaves.v','w').write('''(** ofxLeafElements, leaf_elements.go:%d-%d, transcribed by tools/gen_leaves.py. *)
From Verif Require Import GoStr.

Definition ofx_leaf_elements : list str := map bs
%s%%string.
'''%(i+1,j+1,'\n'.join(out)))
print(len(names))
