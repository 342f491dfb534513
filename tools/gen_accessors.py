#!/usr/bin/env python3
"""Generate rocq/theories/Accessors.v from the accessor methods of the interface
types in /repo/invstmt.go and /repo/seclist.go."""
import re, os
HERE = os.path.dirname(os.path.abspath(__file__))
OUT = os.path.join(HERE, '..', 'rocq', 'theories', 'Accessors.v')
IFACE = {
    'InvTransaction': ('invstmt.go', {'TransactionType': 'str', 'InvTransaction': 'InvTran'}),
    'Security': ('seclist.go', {'SecurityType': 'str', 'SecurityInfo': 'SecInfo'}),
    'Position': ('invstmt.go', {'PositionType': 'str', 'InvPosition': 'InvPosition'}),
    'OpenOrder': ('invstmt.go', {'OrderType': 'str'}),
}
records = open(os.path.join(HERE, '..', 'rocq', 'theories', 'Records.v')).read()

def kinds(iface):
    m = re.search(r'Inductive %s :=\n(.*?)\.\n' % iface, records, re.S).group(1)
    return re.findall(r'\| %s_(\w+) \(x' % iface, m)

def field_type(rec, field):
    m = re.search(r'Record %s := mk%s \{(.*?)\n\}' % (rec, rec), records, re.S).group(1)
    return re.search(r'%s_%s : ([^;\n]+)' % (rec, field), m).group(1).strip()

def main():
    out = ['(** Generated by tools/gen_accessors.py. The methods of the interface types\n'
           '    InvTransaction and Position (invstmt.go), OpenOrder (invstmt.go) and Security\n'
           '    (seclist.go), one match arm for each method in /repo. *)',
           'From Verif Require Import GoStr Records.', '']
    for iface, (fn, methods) in IFACE.items():
        src = open('/repo/' + fn).read().split('\n')
        for meth, res in methods.items():
            out.append('Definition %s_%s (t : %s) : %s :=\n  match t with' % (iface, meth + '_method', iface, res))
            for k in kinds(iface):
                pat = re.compile(r'func \((\w+) %s\) %s\(\) \w+ \{' % (k, meth))
                ln = next(i for i, l in enumerate(src) if pat.match(l))
                recv = pat.match(src[ln]).group(1)
                body = src[ln + 1].strip()
                assert body.startswith('return ') and src[ln + 2] == '}', body
                expr = body[len('return '):]
                if expr.startswith('"'):
                    term = 'bs ' + expr
                    var = '_'
                else:
                    path = expr.split('.')
                    assert path[0] == recv
                    term, ty = 'x', k
                    for f in path[1:]:
                        term = '%s_%s %s' % (ty, f, term if ' ' not in term else '(%s)' % term)
                        ty = field_type(ty, f)
                    assert ty == res, (k, ty, res)
                    var = 'x'
                out.append('  | %s_%s %s => %s (* %s:%d-%d *)' % (iface, k, var, term, fn, ln + 1, ln + 3))
            out.append('  end.\n')
    open(OUT, 'w').write('\n'.join(out))

main()
