#!/usr/bin/env python3
"""Transcribe the struct tags of /repo into Coq (theories/Schema.v), with the
conversions between the records of Records.v and the values of Codec.v."""
from gostructs import *
from gen_records import order, alts, st, va
LISTTY={'PositionList':('TAltList (bs "INVPOSLIST") Position_alts','Position'),
        'OOList':('TAltList (bs "INVOOLIST") OpenOrder_alts','OpenOrder'),
        'MessageSetList':('TMsgSets MessageSet_fields','MessageSet')}
CUSTOM={'InvTranList':('INVTRANLIST',['DTSTART','DTEND',None,'INVBANKTRAN']),'SecurityList':('SECLIST',[None])}
def base_ty(t):
    if t in SCALARS: return 'TLeaf '+SCALARS[t][1]
    if t in ENUMS: return 'TLeaf (LEnum enum_%s)'%t
    if t in LISTTY: return LISTTY[t][0]
    return t+'_ty'
def par(s): return '('+s+')' if ' ' in s else s
def fty(f):
    if f.base in va: return 'TAlts %s_alts'%f.base
    b=base_ty(f.base)
    if f.card=='Ptr': return 'TPtr '+par(b)
    if f.card=='Slice': return 'TSlice '+par(b)
    return b
def conv(f,d):
    """coq function converting the field, None for identity"""
    if f.base in SCALARS or f.base in ENUMS: return None
    if f.base in LISTTY: return 'map %s_%s'%(LISTTY[f.base][1],d)
    fn='%s_%s'%(f.base,d)
    if f.base in va or f.card=='Slice': return 'map '+fn
    if f.card=='Ptr': return 'option_map '+fn
    return fn
out=['''(** The struct tags of /repo, transcribed by tools/gen_schema.py: for each
    struct its fields with their element paths, and the conversions between the
    records of Records.v and the values of Codec.v. *)
From Coq Require Import QArith.
From Verif Require Import GoStr GoTime Types Enums EnumTables Records Codec.
Close Scope Q_scope.

Lemma map_iso {A B} (f : A -> B) (g : B -> A) :
  (forall x, g (f x) = x) -> forall l, map g (map f l) = l.
Proof. intros H l. rewrite map_map, (map_ext _ _ H). apply map_id. Qed.

Lemma option_map_iso {A B} (f : A -> B) (g : B -> A) :
  (forall x, g (f x) = x) -> forall o, option_map g (option_map f o) = o.
Proof. intros H [x|]; simpl; congruence. Qed.
''']
inv=['''(** The conversions of Schema.v are inverse in the other direction too; written by
    tools/gen_schema.py. *)
From Coq Require Import QArith.
From Verif Require Import GoStr GoTime Types Enums EnumTables Records Codec Schema.
Close Scope Q_scope.
''']
def flds(fs,names=None):
    r='FNil'
    for i in range(len(fs)-1,-1,-1):
        f=fs[i]
        nm=f.xml; ps=f.parents; om=f.omitempty
        if names is not None: nm=names[i] or ''; ps=[]; om=False
        r='FCons [%s] (bs "%s") %s %s\n  (%s)'%('; '.join('bs "%s"'%p for p in ps),nm,'true' if om else 'false',par(fty(f)),r) if r!='FNil' else \
          'FCons [%s] (bs "%s") %s %s FNil'%('; '.join('bs "%s"'%p for p in ps),nm,'true' if om else 'false',par(fty(f)))
    return r
for n in order:
    if n in st:
        s=st[n]
        fs=s.fields
        names=None
        cite='%s:%d-%d'%(s.file,s.lo,s.hi)
        if n in CUSTOM: xml,names=CUSTOM[n]; kind='TCustom'; cite+=', and its UnmarshalXML and MarshalXML methods'
        else: xml=s.xmlname; kind='TStruct'
        body=fs[1:] if n=='MessageSet' else fs
        out.append('(** %s *)'%cite)
        out.append('Definition %s_fields : flds :=\n  %s.'%(n,flds(body,names)))
        out.append('Definition %s_ty : ty := %s %s %s_fields.'%(n,kind,'(bs "%s")'%xml if xml else '[]',n))
        T='(str * interp_flds %s_fields)%%type'%n if n=='MessageSet' else 'interp %s_ty'%n
        tup='tt'
        for f in reversed(body):
            c=conv(f,'to'); v='%s_%s r'%(n,f.name)
            tup='(%s, %s)'%(c+' ('+v+')' if c else v,tup)
        if n=='MessageSet': tup='(MessageSet_Name r, %s)'%tup
        out.append('Definition %s_to (r : %s) : %s :=\n  %s.'%(n,n,T,tup))
        pat='tt'
        for i in reversed(range(len(fs))):
            pat='(x%d, %s)'%(i,pat)
        out.append("Definition %s_of (v : %s) : %s :=\n  let '%s := v in\n  mk%s %s."%(n,T,n,pat,n,' '.join('(%s x%d)'%(conv(f,'of'),i) if conv(f,'of') else 'x%d'%i for i,f in enumerate(fs))))
    else:
        al=alts(n); v=va[n]
        r='ANil'
        for a,t in reversed(al):
            r='ACons (bs "%s") (bs "%s") %s_ty\n  (%s)'%(a,v['typename'][t],t,r) if r!='ANil' else 'ACons (bs "%s") (bs "%s") %s_ty ANil'%(a,v['typename'][t],t)
        out.append('(** %s:%d-%d and %d-%d: the names accepted and the names written. *)'%((v['file'],)+v['ulines']+v['mlines']))
        out.append('Definition %s_alts : alts :=\n  %s.'%(n,r))
        def inj(i,x):
            r='inl (%s)'%x
            for _ in range(i): r='inr (%s)'%r
            return r
        out.append('Definition %s_to (r : %s) : interp_alts %s_alts :=\n  match r with\n%s\n  end.'%(n,n,n,'\n'.join('  | %s_%s x => %s'%(n,t,inj(i,t+'_to x')) for i,(a,t) in enumerate(al))))
        def nest(i):
            if i==len(al): return 'match v%d with end'%i
            return 'match v%d with inl x => %s_%s (%s_of x) | inr v%d =>\n  %s end'%(i,n,al[i][1],al[i][1],i+1,nest(i+1))
        out.append('Definition %s_of (v0 : interp_alts %s_alts) : %s :=\n  %s.'%(n,n,n,nest(0)))
    deps=sorted({(LISTTY[f.base][1] if f.base in LISTTY else f.base) for f in st[n].fields if conv(f,'to')}) if n in st else sorted({t for a,t in alts(n)})
    out.append('Lemma %s_iso r : %s_of (%s_to r) = r.'%(n,n,n))
    out.append('Proof.\n  destruct r%s; cbv beta iota delta [%s_of %s_to %s].'%(' as [%s]'%' '.join('f%d'%i for i in range(len(st[n].fields))) if n in st else '',n,n,' '.join('%s_%s'%(n,f.name) for f in st[n].fields) if n in st else ''))
    fl=st[n].fields if n in st else []
    ls=sorted({LISTTY[f.base][1] if f.base in LISTTY else f.base for f in fl if (conv(f,'to') or '').startswith('map')})
    os=sorted({f.base for f in fl if (conv(f,'to') or '').startswith('option_map')})
    def close_with(d):
        R=['?(map_iso _ _ %s_%s)'%(x,d) for x in ls]+['?(option_map_iso _ _ %s_%s)'%(x,d) for x in os]+['?%s_%s'%(x,d) for x in deps]
        return ('  all: rewrite %s.\n'%', '.join(R) if R else '')+'  all: reflexivity.\nQed.'
    out.append(close_with('iso'))
    out.append('')
    inv.append('Lemma %s_inv v : %s_to (%s_of v) = v.'%(n,n,n))
    if n in st:
        pat='[]'
        for i in reversed(range(len(fs))):
            pat='[x%d %s]'%(i,pat)
        inv.append('Proof.\n  destruct v as %s. cbv beta iota delta [%s_of %s_to %s].'%(pat,n,n,' '.join('%s_%s'%(n,f.name) for f in st[n].fields)))
        inv.append(close_with('inv'))
    else:
        inv.append('Proof.')
        for i,(a,t) in enumerate(alts(n)):
            inv.append('  destruct v as [x|v]; [exact (f_equal (fun y : interp %s_ty => (%s) : interp_alts %s_alts) (%s_inv x))|].'%(t,inj(i,'y'),n,t))
        inv.append('  destruct v.\nQed.')
    inv.append('')
open('/verif/rocq/theories/Schema.v','w').write('\n'.join(out))
open('/verif/rocq/theories/SchemaInv.v','w').write('\n'.join(inv))
