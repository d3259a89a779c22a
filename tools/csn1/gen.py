import re,sys,json
R='/repo/'
def load(path):
    """text with comments and '#if 0' blocks blanked, line structure kept"""
    s=open(R+path).read()
    s=re.sub(r'/\*.*?\*/',lambda m:re.sub(r'[^\n]',' ',m.group(0)),s,flags=re.S)
    s=re.sub(r'//[^\n]*','',s)
    out=[];stack=[];
    for ln in s.split('\n'):
        t=ln.strip()
        if re.match(r'#\s*if',t):
            dead = re.match(r'#\s*if\s+0',t) is not None
            stack.append(dead); out.append(''); continue
        if re.match(r'#\s*else',t):
            stack[-1]=not stack[-1] if stack else False; out.append(''); continue
        if re.match(r'#\s*endif',t):
            stack.pop(); out.append(''); continue
        out.append('' if any(stack) else ln)
    return '\n'.join(out)
# ---------- structs
hdr=load('include/osmocom/gprs/rlcmac/csn1_defs.h')
consts={}
for m in re.finditer(r'^\s*#\s*define\s+(\w+)[ \t]+(.+)$',hdr,flags=re.M):
    consts[m.group(1)]=m.group(2).strip()
for f in ['src/rlcmac/csn1_ts_44_060.c','src/rlcmac/csn1_ts_44_018.c','src/rlcmac/csn1_ts_24_008.c']:
    for m in re.finditer(r'^\s*#\s*define\s+(\w+)[ \t]+(.+)$',load(f),flags=re.M):
        consts.setdefault(m.group(1),m.group(2).strip())
toks=re.findall(r'[A-Za-z_]\w*|0x[0-9a-fA-F]+|\d+|\S',re.sub(r'^\s*#.*$','',hdr,flags=re.M))
pos=0
BASE={'guint8':1,'guint16':2,'guint32':4,'guint64':8,'gboolean':4,'gint16':2,'gint32':4,'gint':4,'guint':4,'gint8':1,'gchar':1,'char':1,'int':4,'unsigned':4}
types={}  # name -> type tuple
tags={}
def ev(e):
    e=e.strip()
    for _ in range(10):
        e2=re.sub(r'[A-Za-z_]\w*',lambda m:str(consts.get(m.group(0),m.group(0))),e)
        if e2==e: break
        e=e2
    e=re.sub(r'/\s*8','//8',e) if '/8' in e or '/ 8' in e else e
    return eval(e)
def peek(): return toks[pos]
def nxt():
    global pos; pos+=1; return toks[pos-1]
def expect(x):
    t=nxt(); assert t==x,(t,x,toks[pos-10:pos+10])
def parse_type():
    t=nxt()
    while t in('const','PRE_PACKED','signed'): t=nxt()
    if t in('struct','union'):
        name=None
        if peek()!='{': name=nxt()
        if peek()=='{':
            nxt(); fs=[]
            while peek()!='}':
                ty=parse_type()
                while True:
                    n=nxt(); tt=ty; dims=[]
                    while peek()=='[':
                        nxt(); e=[]
                        while peek()!=']': e.append(nxt())
                        nxt(); dims.append(ev(' '.join(e)))
                    for d in reversed(dims): tt=('arr',d,tt)
                    if peek()==':':
                        nxt(); tt=('bits',int(nxt()))
                    fs.append((n,tt))
                    if peek()==',': nxt(); continue
                    break
                expect(';')
            nxt()
            r=(t,fs)
            if name: tags[name]=r
            return r
        return tags[name]
    if t=='enum':
        if peek()!='{': nxt()
        if peek()=='{':
            nxt(); v=0; 
            while peek()!='}':
                n=nxt()
                if peek()=='=':
                    nxt(); e=[]
                    while peek() not in(',','}'): e.append(nxt())
                    v=ev(' '.join(e))
                consts[n]=str(v); v+=1
                if peek()==',': nxt()
            nxt()
        return ('base','gint')
    if t=='unsigned' and peek() in('int','char','short'):
        t={'int':'guint','char':'guint8','short':'guint16'}[nxt()]
    if t in BASE: return ('base',t)
    return types[t]
while pos<len(toks):
    t=peek()
    if t=='typedef':
        nxt(); ty=parse_type(); n=nxt()
        if n=='POST_PACKED': n=nxt()
        dims=[]
        while peek()=='[':
            nxt(); e=[]
            while peek()!=']': e.append(nxt())
            nxt(); dims.append(ev(' '.join(e)))
        for d in reversed(dims): ty=('arr',d,ty)
        types[n]=ty
        if peek()=='POST_PACKED': nxt()
        expect(';')
    elif t in('struct','enum') and toks[pos+2]=='{':
        ty=parse_type(); expect(';')
    else:
        while nxt()!=';':pass
def align(n,a): return (n+a-1)//a*a
def size(t):
    k=t[0]
    if k=='base': return BASE[t[1]],BASE[t[1]]
    if k=='arr':
        s,a=size(t[2]); return s*t[1],a
    if k=='struct':
        o=0;A=1;b=0
        for n,f in t[1]:
            if f[0]=='bits':
                if b==0 or b+f[1]>8: o+=1; b=f[1]
                else: b+=f[1]
                continue
            b=0
            s,a=size(f); o=align(o,a)+s; A=max(A,a)
        return align(o,A),A
    S=0;A=1
    for n,f in t[1]:
        s,a=size(f); S=max(S,s); A=max(A,a)
    return align(S,A),A
def member(t,path):
    """offset and type of a member designator"""
    off=0
    for p in re.findall(r'\w+|\[\s*\w+\s*\]',path):
        if p[0]=='[':
            k=ev(p[1:-1]); assert t[0]=='arr'
            t=t[2]; off+=k*size(t)[0]; continue
        if t[0]=='arr': assert 0
        o=0
        if any(f[0]=='bits' for n,f in t[1]) and t[0]=='struct':
            raise KeyError('bitfield '+path)
        for n,f in t[1]:
            s,a=size(f)
            if t[0]=='struct':
                o=align(o,a)
            else: o=0
            if n==p: off+=o; t=f; break
            o+=s
        else: raise KeyError((path,p))
    return off,t
c60=load('src/rlcmac/csn1_ts_44_060.c')
for m in re.finditer(r'typedef\s+struct\s*\{.*?\}\s*\w+\s*;',c60,flags=re.S):
    toks=re.findall(r'[A-Za-z_]\w*|0x[0-9a-fA-F]+|\d+|\S',m.group(0)); pos=1
    ty=parse_type(); types[nxt()]=ty
for m in re.finditer(r'typedef\s+(\w+)\s+(\w+)\s*;',c60):
    if m.group(1) in types: types[m.group(2)]=types[m.group(1)]
# ---------- descriptors
def split(s):
    r=[];d=0;c=''
    for ch in s:
        if ch in '([{': d+=1
        if ch in ')]}': d-=1
        if ch==',' and d==0: r.append(c.strip()); c=''
        else: c+=ch
    r.append(c.strip()); return r
def calls(s,base):
    """top-level MACRO(args) occurrences with line numbers"""
    i=0;r=[]
    rx=re.compile(r'\b(M_\w+|CSN_ERROR)\s*\(')
    while True:
        m=rx.search(s,i)
        if not m: return r
        j=m.end();d=1
        while d: 
            d+= (s[j]=='(')-(s[j]==')'); j+=1
        r.append((m.group(1),split(s[m.end():j-1]),base+s[:m.start()].count('\n')))
        i=j
descrs={};choices={};order=[]
FILES=['src/rlcmac/csn1_ts_24_008.c','src/rlcmac/csn1_ts_44_018.c','src/rlcmac/csn1_ts_44_060.c']
where={}
for f in FILES:
    s=load(f)
    for m in re.finditer(r'CSN_DESCR_BEGIN\s*\(\s*(\w+)\s*\)(.*?)CSN_DESCR_END\s*\(\s*(\w+)\s*\)',s,flags=re.S):
        l0=s[:m.start()].count('\n')+1; l1=s[:m.end()].count('\n')+1
        body_line=s[:m.start(2)].count('\n')+1
        if m.group(1)!=m.group(3): print('END mismatch',m.group(1),m.group(3),file=sys.stderr)
        n=m.group(1)
        assert n not in descrs,n
        descrs[n]=calls(m.group(2),body_line); where[n]=(f,l0,l1); order.append((s[:m.start()].count('\n'),f,'d',n))
    for m in re.finditer(r'CSN_ChoiceElement_t\s+(\w+)\s*\[\s*\]\s*=\s*\{(.*?)\};',s,flags=re.S):
        l0=s[:m.start()].count('\n')+1; l1=s[:m.end()].count('\n')+1
        n=m.group(1); els=[]
        for e in re.finditer(r'\{\s*(\w+)\s*,\s*(\w+)\s*,\s*(\w+)\s*,\s*(?=M_|CSN_E)',m.group(2)):
            rest=m.group(2)[e.end():]
            c=calls(rest,0)[0]
            els.append((ev(e.group(1)),ev(e.group(2)),ev(e.group(3)),c))
        choices[n]=els; where[n]=(f,l0,l1); order.append((s[:m.start()].count('\n'),f,'c',n))
if __name__=='__main__':
    print(len(types),len(descrs),len(choices))
    miss=set()
    for n,es in descrs.items():
        for e in es:
            if e[1][0] not in types: miss.add((n,e[1][0]))
    print(miss)
