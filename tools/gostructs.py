"""Read the struct definitions of /repo (library package) as text."""
import re
FILES=['common','seclist','signon','signup','bank','creditcard','invstmt','profile']
SCALARS={'Int':('int_','LInt'),'String':('str','LString'),'string':('str','LString'),'Amount':('amount','LAmount'),
 'Date':('gotime','LDate'),'Boolean':('bool','LBool'),'UID':('str','LUID'),'CurrSymbol':('str','LCurr')}
csrc=open('/repo/constants.go').read()
ENUMS=re.findall(r'^type (\w+) uint$',csrc,re.M)
class F: pass
class S: pass
def load():
    structs={}
    for f in FILES:
        src=open('/repo/%s.go'%f).read()
        for m in re.finditer(r'^type (\w+) struct \{\n(.*?)^\}',src,re.M|re.S):
            s=S(); s.name=m.group(1); s.file=f+'.go'
            s.lo=src[:m.start()].count('\n')+1; s.hi=src[:m.end()].count('\n')+1
            s.fields=[]; s.xmlname=None
            for l in m.group(2).split('\n'):
                l=re.sub(r'//.*','',l).strip()
                if not l: continue
                mm=re.match(r'(\w+)\s+(\S+)(?:\s+`xml:"([^"]*)"`)?$',l)
                assert mm,l
                name,typ,tag=mm.groups()
                if name=='XMLName':
                    s.xmlname=tag or ''; continue
                fd=F(); fd.name=name; fd.gotype=typ
                parts=(tag or '').split(',')
                path=parts[0].split('>') if parts[0] else [name]
                fd.tagged=bool(parts[0])
                fd.parents=path[:-1]; fd.xml=path[-1]; fd.omitempty='omitempty' in parts[1:]
                fd.card='One'; t=typ
                if t.startswith('*'): fd.card='Ptr'; t=t[1:]
                elif t.startswith('[]'): fd.card='Slice'; t=t[2:]
                fd.base=t
                s.fields.append(fd)
            structs[s.name]=s
    return structs
# interface lists: (coq sum type, go list type)
def variants():
    """For each interface: list of (element name in UnmarshalXML, Go type), read from the switch statements."""
    out={}
    for f,lst,iface in [('invstmt','InvTranList','InvTransaction'),('invstmt','PositionList','Position'),('invstmt','OOList','OpenOrder'),('seclist','SecurityList','Security')]:
        src=open('/repo/%s.go'%f).read()
        m=re.search(r'^func \(\w+ \*%s\) UnmarshalXML.*?^\}'%lst,src,re.M|re.S)
        ulines=(src[:m.start()].count('\n')+1,src[:m.end()].count('\n')+1)
        un=[(a,b) for a,b in re.findall(r'case "(\w+)":\n\s*var \w+ (\w+)',m.group(0)) ]
        mm=re.search(r'^func \(\w+ \*?%s\) MarshalXML.*?^\}'%lst,src,re.M|re.S)
        mlines=(src[:mm.start()].count('\n')+1,src[:mm.end()].count('\n')+1)
        mar=re.findall(r'case (\w+):\n\s*if err := e.EncodeElement',mm.group(0))
        meth={'InvTransaction':'TransactionType','Position':'PositionType','OpenOrder':'OrderType','Security':'SecurityType'}[iface]
        names={}
        for a,b in re.findall(r'func \(\w+ (\w+)\) %s\(\) string \{\n\s*return "(\w+)"'%meth,src): names[a]=b
        out[iface]=dict(list=lst,file=f+'.go',unmarshal=un,marshal=mar,typename=names,ulines=ulines,mlines=mlines)
    return out
if __name__=='__main__':
    st=load()
    print(len(st),sum(len(s.fields) for s in st.values()))
    for k,v in variants().items():
        print(k,v['ulines'],v['mlines']); print(v['unmarshal']); print(v['marshal']); print(v['typename'])
