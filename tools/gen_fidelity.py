#!/usr/bin/env python3
"""Evaluate the tests of /repo in the model (theories/Vectors.v, theories/Fidelity.v).

The test functions are read as text. A small interpreter for the Go they use
(variables, composite literals, NewDate, SetFrac64, append) builds the values
they expect, and the values are written as Coq terms."""
import re,sys
from fractions import Fraction
from gostructs import *
st=load(); va=variants()
LISTS={'PositionList':'Position','OOList':'OpenOrder','MessageSetList':'MessageSet'}
consts={}
for m in re.finditer(r'^const \(\n(.*?)^\)',csrc,re.M|re.S):
    n=0
    for l in m.group(1).split('\n'):
        l=re.sub(r'//.*','',l).strip()
        if not l: continue
        if re.match(r'\w+ \w+ = 1 \+ iota$',l): n=0
        n+=1
        consts[l.split()[0]]=n
SLOTS=['Signup','Bank','CreditCard','Loan','InvStmt','InterXfer','WireXfer','Billpay','Email','SecList','PresDir','PresDlv','Prof','Image']

TOK=re.compile(r'\s+|//[^\n]*|(`[^`]*`)|("(?:\\.|[^"\\])*")|(\d+)|([A-Za-z_]\w*)|(:=|!=|==|&&|\|\||.)',re.S)
def toks(src):
    out=[]; i=0
    while i<len(src):
        m=TOK.match(src,i); i=m.end()
        if m.group(1): out.append(('s',m.group(1)[1:-1]))
        elif m.group(2): out.append(('s',m.group(2)[1:-1].encode().decode('unicode_escape')))
        elif m.group(3): out.append(('n',int(m.group(3),8) if len(m.group(3))>1 and m.group(3)[0]=='0' else int(m.group(3))))
        elif m.group(4): out.append(('i',m.group(4)))
        elif m.group(5): out.append(('p',m.group(5)))
    return out
class V:
    def __init__(s,t,f=None): s.t=t; s.f=f or {}
    def copy(s): return V(s.t,{k:(v.copy() if isinstance(v,V) else v) for k,v in s.f.items()})
class Ptr:
    def __init__(s,v): s.v=v
class Am:
    def __init__(s,q): s.q=q
class Stop(Exception): pass
def val(x): return x.v if isinstance(x,Ptr) else x
class P:
    def __init__(s,src): s.k=toks(src); s.i=0; s.env={}; s.client=None
    def peek(s,o=0): return s.k[s.i+o][1] if s.i+o<len(s.k) else None
    def kind(s,o=0): return s.k[s.i+o][0] if s.i+o<len(s.k) else None
    def next(s): s.i+=1; return s.k[s.i-1][1]
    def eat(s,x): assert s.peek()==x,(x,s.k[s.i-6:s.i+6]); s.i+=1
    def typ(s):
        if s.peek()=='[': s.eat('['); s.eat(']'); return '[]'+s.typ()
        if s.peek()=='*': s.eat('*'); return '*'+s.typ()
        t=s.next()
        while s.peek()=='.': s.eat('.'); t+='.'+s.next()
        return t
    def expr(s,hint=None):
        e=s.unary(hint)
        while s.peek() in ('*','+','-') and s.kind()=='p' and isinstance(e,int):
            o=s.next(); b=s.unary()
            e=e*b if o=='*' else e+b if o=='+' else e-b
        return e
    def unary(s,hint=None):
        x=s.peek()
        if s.kind()=='p':
            if x=='&': s.next(); return Ptr(s.unary())
            if x=='*': s.next(); return val(s.unary())
            if x=='-': s.next(); return -s.unary()
            if x=='(': s.next(); e=s.expr(); s.eat(')'); return e
            if x=='[':
                t=s.typ(); return s.lit(t)
            if x=='{': return s.lit(hint)
            raise Exception(x)
        if s.kind() in 'sn': return s.next()
        nm=s.next()
        if nm=='true': return True
        if nm=='false': return False
        while s.peek()=='.': s.next(); nm+='.'+s.next()
        if s.peek()=='{' and (nm in st or nm in LISTS or nm in('BasicClient','Response','Request')): return s.lit(nm)
        if s.peek()=='(':
            s.eat('('); a=[]
            while s.peek()!=')':
                a.append(s.expr())
                if s.peek()==',': s.next()
            s.eat(')'); return s.call(nm,a)
        if nm in consts: return ('enum',consts[nm])
        if nm in s.env: return s.env[nm]
        if '.' in nm: return s.path(nm)
        raise Exception('unknown '+nm)
    def path(s,nm):
        h,*r=nm.split('.'); v=s.env[h]
        for x in r: v=val(v).f.get(x)
        return v
    def call(s,nm,a):
        if nm=='time.FixedZone': return ('zone',a[0],a[1])
        if nm=='time.Unix': return ('unix',)
        if nm=='NewDateGMT': return Ptr(('date',a,0,'GMT'))
        if nm=='NewDate': return Ptr(('date',a[:7],a[7][2],a[7][1]))
        if nm=='NewCurrSymbol': return Ptr(a[0])
        if nm=='strings.NewReader': return a[0]
        if nm=='append': return (a[0] or [])+[a[1]]
        if nm=='ParseResponse': raise Stop
        if nm=='Amount' or nm=='String': return a[0]
        raise Exception(nm)
    def lit(s,t):
        s.eat('{')
        if t.startswith('[]') or t in LISTS:
            e=LISTS.get(t) or t[2:]; l=[]
            while s.peek()!='}':
                l.append(s.expr(e))
                if s.peek()==',': s.next()
            s.eat('}'); return l
        v=V(t)
        while s.peek()!='}':
            f=s.next(); s.eat(':')
            v.f[f]=s.expr(None)
            if s.peek()==',': s.next()
        s.eat('}'); return v
    def block(s):
        d=0
        while True:
            x=s.next()
            if x=='{': d+=1
            if x=='}':
                d-=1
                if d==0: return
    def run(s):
        try:
            while s.i<len(s.k): s.stmt()
        except Stop: pass
        return s
    def stmt(s):
        x=s.peek()
        if x=='if':
            while s.peek()!='{': s.next()
            s.block(); return
        if x=='var':
            s.next(); ns=[s.next()]
            while s.peek()==',': s.next(); ns.append(s.next())
            t=None
            if s.peek()!='=': t=s.typ()
            if s.peek()=='=':
                s.next(); s.env[ns[0]]=s.expr(); return
            for n in ns: s.env[n]=Am(Fraction(0)) if t=='Amount' else V(t)
            return
        # assignment or call
        ns=[]
        while True:
            n=s.next()
            while s.peek()=='.': s.next(); n+='.'+s.next()
            ns.append(n)
            if s.peek()==',': s.next(); continue
            break
        if s.peek() in(':=','='):
            s.next(); e=s.expr(); s.assign(ns[0],e); return
        assert s.peek()=='(',(ns,s.k[s.i:s.i+5])
        meth=ns[0]
        if meth.startswith('check') or meth.startswith('marshalCheck') or meth.startswith('t.') or meth.startswith('xml.'): raise Stop
        s.eat('('); a=[]
        while s.peek()!=')':
            a.append(s.expr())
            if s.peek()==',': s.next()
        s.eat(')')
        o,m=meth.rsplit('.',1)
        if m=='SetFrac64': s.env[o]=Am(Fraction(a[0],a[1]))
        elif m=='SetInt64': s.env[o]=Am(Fraction(a[0]))
        elif m=='SetClientFields': s.client=val(a[0])
        else: raise Exception(meth)
    def assign(s,n,e):
        if '.' not in n: s.env[n]=e; return
        h,*r=n.split('.'); v=val(s.env[h]); 
        for x in r[:-1]:
            if x not in v.f: v.f[x]=V(None)
            v=val(v.f[x])
        v.f[r[-1]]=e
def cstr(x):
    if not x: return '[]'
    b=x.encode('utf-8') if isinstance(x,str) else x
    if len(b)>2000: return '(concat [%s])'%'; '.join(cstr(b[i:i+200]) for i in range(0,len(b),200))
    if b.endswith(b'\r') and b'\r' not in b[:-1]: return '(%s ++ [cr])'%(cstr(b[:-1]))
    if all(32<=c<127 or c==9 for c in b): return '(bs "%s")'%b.decode().replace('"','""')
    return '(bytes [%s]%%N)'%';'.join(str(c) for c in b)
def cdate(x):
    if x is None: return 'zero_time'
    _,a,off,z=val(x)
    return '(go_date %s %s %s)'%(' '.join('(%d)'%i for i in a[:7]),'(%d)'%off,cstr(z))
def cscalar(t,x):
    x=val(x)
    if t in ('Int',): return '(%d)%%Z'%(x or 0)
    if t in ('String','string','UID'): return cstr(x or '')
    if t=='CurrSymbol': return cstr(x) if x else '(bs "XXX")'
    if t=='Boolean': return 'true' if x else 'false'
    if t=='Amount':
        q=x.q if x is not None else Fraction(0)
        return '(%d # %d)%%Q'%(q.numerator,q.denominator)
    if t=='Date': return cdate(x)
    if t in ENUMS: return '%d%%N'%(x[1] if x else 0)
def cbase(t,x):
    if t in SCALARS or t in ENUMS: return cscalar(t,x)
    if t in LISTS: return clist(LISTS[t],x)
    if t in va:
        x=val(x); return '(%s_%s %s)'%(t,x.t,cbase(x.t,x))
    x=val(x) or V(t)
    known={f.name for f in st[t].fields}|{'XMLName'}
    bad=set(x.f)-known
    assert not bad,(t,bad)
    return '(mk%s %s)'%(t,' '.join(cfield(f,x.f.get(f.name)) for f in st[t].fields))
def clist(t,x): return '['+'; '.join(cbase(t,y) for y in (x or []))+']'
def cfield(f,x):
    if f.card=='Slice': return clist(f.base,x)
    if f.card=='Ptr': return 'None' if x is None else '(Some %s)'%cbase(f.base,x)
    return cbase(f.base,x)
def cslots(x):
    return '(mkSlots %s)'%' '.join('['+'; '.join('Msg%s %s'%(val(m).t,cbase(val(m).t,m)) for m in x.f.get(s) or [])+']' for s in SLOTS)
def cresponse(x):
    return 'mkResponse %d%%N %s %s'%(x.f['Version'][1],cbase('SignonResponse',x.f.get('Signon')),cslots(x))
def tests(f):
    src=open('/repo/%s_test.go'%f).read()
    return {m.group(1):m.group(2) for m in re.finditer(r'^func (Test\w+)\(t \*testing.T\) \{\n(.*?)^\}',src,re.M|re.S)}
def cdoc(b):
    """A document as lines, which keeps the literals readable."""
    if isinstance(b,str): b=b.encode()
    ls=b.split(b'\n')
    return '(doc [%s])'%';\n  '.join(cstr(l) if l else '[]' for l in ls)
if __name__=='__main__':
    out=[]
    def w(*a): out.append(' '.join(a))
    w('''(** The tests of /repo evaluated in the model, generated by
    tools/gen_fidelity.py from /repo/*_test.go and /repo/samples. These are tests
    of the model, not proofs of properties: the values the authors of the library
    expect are the values the model computes. *)
From Coq Require Import QArith List.
From Verif Require Import GoStr GoTime Types Enums EnumTables Records Messages Codec Schema Document Xml Headers Wire Clients Samples.
Close Scope Q_scope.
Import ListNotations.

Definition bytes (l : list N) : str := map chr l.
Fixpoint doc (ls : list str) : str :=
  match ls with
  | [] => []
  | [l] => l
  | l :: ls' => l ++ nl :: doc ls'
  end.

(** checkResponseRoundTrip, response_test.go:139-151. *)
Definition round_trips (r : Response) : Prop :=
  match response_marshal r with
  | Some b => parse_response sample_env b = (Some r, None)
  | None => False
  end.

(** The expression ignoreSpacesRe, request_test.go:10: white space at the start
    and at the end of a line and line ends, for texts without white space at the
    end of a line. *)
Fixpoint squeeze (start : bool) (s : str) : str :=
  match s with
  | [] => []
  | c :: s' =>
      if Ascii.eqb c nl || Ascii.eqb c cr then squeeze true s'
      else if start && (Ascii.eqb c " "%char || Ascii.eqb c tab) then squeeze true s'
      else c :: squeeze false s'
  end.

(** xml.Unmarshal, for an input that is one element. *)
Definition xml_unmarshal (t : ty) (s : str) : option (interp t) :=
  a <- next_token (lex true s) ;;
  match fst a with
  | TStart sp nm => n <- read_element true [] (snd a) [(sp, nm, [])] ;; unmarshal sample_env t n (zero t)
  | _ => None
  end.
''')
    # responses
    for f in ['bank','creditcard','invstmt','profile','signup']:
        for n,body in tests(f).items():
            if n.startswith('TestUnmarshal') and 'responseReader' in body:
                p=P(body).run()
                w('(** %s_test.go, %s. *)'%(f,n))
                w('Definition %s_input : str := %s.'%(n,cdoc(p.env['responseReader'])))
                w('Definition %s_expected : Response := %s.'%(n,cresponse(p.env['expected'])))
                w('Example %s : parse_response sample_env %s_input = (Some %s_expected, None).\nProof. vm_compute. reflexivity. Qed.'%(n,n,n))
                w('Example %s_round_trip : round_trips %s_expected.\nProof. vm_compute. reflexivity. Qed.\n'%(n,n))
            elif n.startswith('TestUnmarshal') and 'xml.Unmarshal' in body:
                body2=body.split('var actual')[0]
                p=P(body2).run()
                t=re.search(r'var actual (\w+)',body).group(1)
                w('(** %s_test.go, %s. *)'%(f,n))
                w('Definition %s_input : str := %s.'%(n,cdoc(p.env['input'])))
                if t in LISTS:
                    e=LISTS[t]
                    w('Definition %s_expected : list %s := %s.'%(n,e,clist(e,p.env['expected'])))
                    w('Example %s : option_map (map %s_of) (xml_unmarshal (TAltList (bs "%s") %s_alts) %s_input) = Some %s_expected.\nProof. vm_compute. reflexivity. Qed.\n'%(n,e,'INVPOSLIST' if e=='Position' else 'INVOOLIST',e,n,n))
                else:
                    w('Definition %s_expected : %s := %s.'%(n,t,cbase(t,p.env['expected'])))
                    w('Example %s : option_map %s_of (xml_unmarshal %s_ty %s_input) = Some %s_expected.\nProof. vm_compute. reflexivity. Qed.\n'%(n,t,t,n,n))
            elif n.startswith('TestMarshal') and 'expectedString' in body:
                p=P(body).run()
                q=p.env['request']; c=p.client
                exp=re.sub(r'(?m)^[ \t]+|[ \t]*$[\r\n]+','',p.env['expectedString'])
                sg=q.f['Signon']; dt=sg.f.pop('DtClient')
                w('(** %s_test.go, %s. *)'%(f,n))
                w('Definition %s_client : client := Basic (mkBasicClient %d%%N %s %s false false [] None).'%(n,c.f['SpecVersion'][1],cstr(c.f['AppID']),cstr(c.f['AppVer'])))
                w('Definition %s_request : Request := set_client_fields %s %s_client\n  (mkRequest [] 0%%N %s %s false false).'%(n,cdate(dt),n,cbase('SignonRequest',sg),cslots(q)))
                w('Example %s : option_map (fun p => squeeze true (fst p)) (request_marshal %s_request) = Some %s.\nProof. vm_compute. reflexivity. Qed.\n'%(n,n,cstr(exp)))
    # samples
    import os
    for d in ['valid_responses','busted_responses']:
        for fn in sorted(os.listdir('/repo/samples/'+d)):
            b=open('/repo/samples/%s/%s'%(d,fn),'rb').read()
            n='sample_'+re.sub(r'\W','_',fn.rsplit('.',1)[0])
            w('(** samples/%s/%s, TestValidSamples, response_test.go:155-177. *)'%(d,fn))
            w('Definition %s : str := %s.'%(n,cdoc(b)))
            w('''Definition %s_check : Prop :=
  match parse_response sample_env %s with
  | (Some r, None) => round_trips r
  | _ => False
  end.
Example %s_ok : %s_check.\nProof. vm_compute. reflexivity. Qed.\n'''%(n,n,n,n))
    open('/verif/rocq/theories/Fidelity.v','w').write('\n'.join(out)+'\n')

def scalars():
    """types_test.go and the invalid response of response_test.go."""
    out=['''(** The tests of /repo/types_test.go and TestInvalidResponse of
    /repo/response_test.go evaluated in the model, generated by
    tools/gen_fidelity.py. Tests of the model, not proofs of properties. *)
From Coq Require Import QArith List.
From Verif Require Import GoStr GoNum GoTime Types Enums EnumTables Records Messages Codec Document Xml Headers Wire Samples Fidelity.
Close Scope Q_scope.
Import ListNotations.

(** The text of <T>text</T> as the library reads it. *)
Definition element_text (s : str) : option str :=
  a <- next_token (lex true (bs "<T>" ++ s ++ bs "</T>")) ;;
  match fst a with
  | TStart sp nm => n <- read_element true [] (snd a) [(sp, nm, [])] ;;
      match n with Elem _ kids => Some (text_of kids) | _ => None end
  | _ => None
  end.
Definition read_as {A} (f : str -> option A) (s : str) : option A := t <- element_text s ;; f t.
''']
    src=open('/repo/types_test.go').read()
    ts={m.group(1):(m.group(2),src[:m.start()].count('\n')+1) for m in re.finditer(r'^func (Test\w+)\(t \*testing.T\) \{\n(.*?)^\}',src,re.M|re.S)}
    KIND={'Int':('Int','int_marshal','(fun t => int_unmarshal t)'),'Amount':('Amount','amount_string','amount_unmarshal'),
          'Date':('Date','date_string','(date_unmarshal sample_env)'),'String':('String','(fun s => escape (string_marshal s))','(fun t => Some (string_unmarshal t))'),
          'Boolean':('Boolean','boolean_marshal','boolean_unmarshal'),'UID':('UID','(fun s => escape s)','(fun t => Some (uid_unmarshal t))'),
          'CurrSymbol':('CurrSymbol','curr_marshal','(curr_unmarshal sample_env)')}
    for n,(body,line) in ts.items():
        m=re.match(r'Test(Marshal|Unmarshal)(\w+)$',n)
        if not m: continue
        kind=m.group(2); t,mar,unm=KIND[kind]
        checks=[]
        body=re.sub(r'eq := func.*?\n\t\}\n','',body,flags=re.S)
        body=re.sub(r'type \w+ struct \{.*?\n\t\}\n','',body,flags=re.S)
        env={}
        zones={}
        cur=None
        for l in body.split('\n'):
            l=re.sub(r'//.*','',l).strip()
            mm=re.match(r'(\w+) := time.FixedZone\("(\w*)", (.*)\)$',l)
            if mm: zones[mm.group(1)]=(mm.group(2),eval(mm.group(3))); continue
            mm=re.match(r'(?:var )?(\w+)(?:, overwritten)?(?: \w+)? = (.*?)(?:, (?:0|""|false))?$',l)
            if mm and not l.startswith('d =') and ('NewCurr' not in l):
                x=mm.group(2)
                if kind=='Int': cur='(%s)%%Z'%x
                elif kind in('String','UID'): cur=cstr(eval(x)); cur='(@nil Ascii.ascii)' if cur=='[]' else cur
                elif kind=='Boolean': cur=x
                continue
            mm=re.match(r'a\.SetFrac64\((-?\d+), (\d+)\)',l)
            if mm: q=Fraction(int(mm.group(1)),int(mm.group(2))); cur='(%d # %d)'%(q.numerator,q.denominator); continue
            mm=re.match(r'a\.SetInt64\((-?\d+)\)',l)
            if mm: cur='(%d # 1)'%int(mm.group(1)); continue
            mm=re.match(r'd = NewDateGMT\((.*)\)$',l)
            if mm: cur=cdate(('date',[eval(x) for x in mm.group(1).split(',')],0,'GMT')); continue
            mm=re.match(r'd = NewDate\((.*), (\w+)\)$',l)
            if mm: z=zones[mm.group(2)]; cur=cdate(('date',[eval(x) for x in mm.group(1).split(',')],z[1],z[0])); continue
            mm=re.match(r'd = &Date\{Time: time.Unix\(0, 0\).In\((\w+)\)\}',l)
            if mm: z=zones[mm.group(1)]; cur=cdate(('date',[1970,1,1,0,0,0,0],z[1],z[0])); continue
            mm=re.match(r'c, _ :?= NewCurrSymbol\("(\w+)"\)',l)
            if mm: cur=cstr(mm.group(1)); continue
            mm=re.match(r'marshalHelper\(t, ("(?:[^"\\]|\\.)*"), &?(\w+)\)',l)
            if mm:
                if mm.group(2) in('as','ds','bs','css'): continue
                x=eval(mm.group(1)); checks.append('%s %s = %s'%(mar,cur,cstr(x) if x else '[]')); continue
            mm=re.match(r'unmarshalHelper2?\(t, ("(?:[^"\\]|\\.)*"), &?(\w+), &overwritten(, eq)?\)',l)
            if mm:
                x=eval(mm.group(1)); b=x.encode()
                inp=cstr(b) if all(32<=c<127 for c in b) and b else '(bytes [%s]%%N)'%';'.join(str(c) for c in b) if b else '[]'
                if kind=='Amount': checks.append('option_map (fun x => amount_equal x %s) (read_as %s %s) = Some true'%(cur,unm,inp))
                elif kind=='Date': checks.append('option_map (fun x => date_equal x %s) (read_as %s %s) = Some true'%(cur,unm,inp))
                else: checks.append('read_as %s %s = Some %s'%(unm,inp,cur))
                continue
            assert 'elper(' not in l,l
        assert len(checks)>=1,n
        out.append('(** types_test.go:%d. *)'%line)
        out.append('Example %s :\n  %s.\nProof. vm_compute. repeat split; reflexivity. Qed.\n'%(n,' /\\\n  '.join(checks)))
    rs=open('/repo/response_test.go').read()
    doc=re.search(r'const invalidResponse = `(.*?)`',rs,re.S).group(1)
    out.append('''(** TestInvalidResponse, response_test.go:177-258. *)
Definition invalid_response : str := %s.
Example TestInvalidResponse :
  match parse_response sample_env invalid_response with
  | (Some _, Some (EInvalid l)) => l = [EPlain (bs "Invalid STATUS>SEVERITY"); EPlain (bs "Invalid STATUS>SEVERITY")]
  | _ => False
  end /\\ fst (parse_response sample_env []) = None.
Proof. vm_compute. split; reflexivity. Qed.
'''%cdoc(doc))
    open('/verif/rocq/theories/FidelityScalars.v','w').write('\n'.join(out)+'\n')
if __name__=='__main__': scalars()
