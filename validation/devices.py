"""Reads the project's mock devices (test/mock) as text."""
import re, os
REPO='/repo'
def preprocess(src, defs):
    out=[]; stack=[]  # (taken_any, active)
    def val(e):
        e=re.sub(r'defined\s*\(?\s*(\w+)\s*\)?', lambda m: '1' if m.group(1) in defs else '0', e)
        e=re.sub(r'\b[A-Za-z_]\w*\b', lambda m: str(defs.get(m.group(0),0)) , e)
        e=e.replace('&&',' and ').replace('||',' or ').replace('!',' not ')
        return bool(eval(e))
    for line in src.split('\n'):
        s=line.strip()
        active=all(x[1] for x in stack)
        if s.startswith('#ifdef'): v=s.split()[1] in defs; stack.append([v,v])
        elif s.startswith('#ifndef'): v=s.split()[1] not in defs; stack.append([v,v])
        elif s.startswith('#if '): v=val(s[4:].split('/*')[0]); stack.append([v,v])
        elif s.startswith('#elif'):
            t=stack[-1]
            if t[0]: t[1]=False
            else: t[1]=val(s[6:]); t[0]=t[1]
        elif s.startswith('#else'):
            t=stack[-1]; t[1]=not t[0]; t[0]=True
        elif s.startswith('#endif'): stack.pop()
        elif s.startswith('#'): pass
        elif active: out.append(line)
    return '\n'.join(out)
ESC={'n':'\n','t':'\t','\\':'\\','"':'"',"'":"'",'r':'\r','0':'\0'}
def lex(s):
    toks=[]; i=0; n=len(s)
    while i<n:
        c=s[i]
        if c.isspace(): i+=1
        elif s.startswith('//',i):
            j=s.find('\n',i); i=n if j<0 else j
        elif s.startswith('/*',i): i=s.index('*/',i)+2
        elif c=='"':
            i+=1; b=''
            while s[i]!='"':
                if s[i]=='\\':
                    d=s[i+1]
                    if d=='x':
                        m=re.match(r'[0-9a-fA-F]+',s[i+2:]); b+=chr(int(m.group(0),16)&255); i+=2+len(m.group(0)); continue
                    if d.isdigit():
                        m=re.match(r'[0-7]{1,3}',s[i+1:]); b+=chr(int(m.group(0),8)); i+=1+len(m.group(0)); continue
                    b+=ESC[d]; i+=2
                else: b+=s[i]; i+=1
            i+=1
            if toks and toks[-1][0]=='str': toks[-1]=('str',toks[-1][1]+b)
            else: toks.append(('str',b))
        else:
            m=re.match(r'[A-Za-z_]\w*|0[xX][0-9a-fA-F]+|\d+|->|::|&&|\|\||==|!=|<=|>=|\+\+|.',s[i:])
            toks.append(('tok',m.group(0))); i+=len(m.group(0))
    return toks
def arrays(toks):
    """name -> list of dicts, for arrays of designated structs"""
    res={}; i=0
    while i<len(toks):
        if toks[i]==('tok','struct'):
            kind=toks[i+1][1]; name=toks[i+2][1]
            j=i+3
            while toks[j]!=('tok','{'): j+=1
            j+=1; items=[]
            while toks[j]!=('tok','}'):
                if toks[j]==('tok',','): j+=1; continue
                assert toks[j]==('tok','{'),toks[j]
                j+=1; d={}
                while toks[j]!=('tok','}'):
                    if toks[j]==('tok',','): j+=1; continue
                    if toks[j]==('tok','.'):
                        f=toks[j+1][1]; assert toks[j+2]==('tok','=')
                        j+=3; v=[]
                        while toks[j] not in (('tok',','),('tok','}')): v.append(toks[j]); j+=1
                        if len(v)==1 and v[0][0]=='str': d[f]=v[0][1]
                        else:
                            t=''.join(x[1] for x in v); t=re.sub(r'UINT\d+_C\((.*?)\)',r'\1',t); d[f]=int(t,0)
                    else: j+=1
                j+=1
                if d: items.append(d)
            res[name]=items; i=j+1
        else: i+=1
    return res
def device(name, arch):
    """arch: arm, arm64, x86, x86_64"""
    defs={'__ANDROID__':1,'CPUINFO_MOCK':1,'CPUINFO_ARCH_ARM':int(arch=='arm'),'CPUINFO_ARCH_ARM64':int(arch=='arm64'),
          'CPUINFO_ARCH_X86':int(arch=='x86'),'CPUINFO_ARCH_X86_64':int(arch=='x86_64')}
    h=preprocess(open(f'{REPO}/test/mock/{name}.h').read(),defs)
    c=preprocess(open(f'{REPO}/test/mock/{name}.cc').read(),defs)
    arr=arrays(lex(h))
    files={d['path']:d['content'][:d['size']] for d in arr['filesystem'] if 'path' in d}
    props={d['key']:d['value'] for d in arr.get('properties',[]) if 'key' in d}
    return files,props,c,arr
def enums():
    s=open(f'{REPO}/include/cpuinfo.h').read()
    env={}
    for m in re.finditer(r'enum\s+\w+\s*\{(.*?)\};',s,re.S):
        body=re.sub(r'/\*.*?\*/','',m.group(1),flags=re.S); body=re.sub(r'//.*','',body)
        v=-1
        for e in body.split(','):
            e=e.strip()
            if not e or e.startswith('#'): 
                e='\n'.join(l for l in e.split('\n') if not l.strip().startswith('#')).strip()
                if not e: continue
            e='\n'.join(l for l in e.split('\n') if not l.strip().startswith('#')).strip()
            if not e: continue
            if '=' in e:
                k,x=[y.strip() for y in e.split('=')]
                v=env[x] if x in env else int(x.rstrip('UL'),0)
            else: k=e; v+=1
            env[k]=v
    for m in re.finditer(r'#define (CPUINFO_\w+)\s+(0x[0-9A-Fa-f]+|\d+)\b',s): env[m.group(1)]=int(m.group(2),0)
    return env
# ---- the tests
class P:
    def __init__(s,t): s.t=t; s.i=0
    def peek(s): return s.t[s.i]
    def next(s): s.i+=1; return s.t[s.i-1]
    def want(s,x):
        y=s.next(); assert y==('tok',x),(y,x,s.t[max(0,s.i-12):s.i+5])
    def is_(s,x): return s.i<len(s.t) and s.t[s.i]==('tok',x)
    def paren(s):
        s.want('('); d=1; r=[]
        while True:
            y=s.next()
            if y==('tok','('): d+=1
            if y==('tok',')'):
                d-=1
                if d==0: return r
            r.append(y)
def pyexpr(toks):
    r=[]
    for i,(k,v) in enumerate(toks):
        if k=='str': r.append(repr(v))
        elif v in('->','.'): r.append('.')
        elif v=='&&': r.append(' and ')
        elif v=='||': r.append(' or ')
        elif v=='!': r.append(' not ')
        elif v=='::': r.append('_')
        elif v=='NULL' or v=='nullptr': r.append('None')
        elif re.fullmatch(r'UINT\d+_C',v): r.append('int')
        else: r.append(v)
    s=''
    for x in r:
        if s and (s[-1].isalnum() or s[-1]=='_') and (x[0].isalnum() or x[0]=='_') : s+=(' ' if not s.endswith('std_') else '')+x
        else: s+=x
    return s.replace('std _ string','std_string').replace('std_ string','std_string').replace('/','//') if not any(k=='str' for k,_ in toks) else s
def split_args(t):
    a=[[]];d=0
    for x in t:
        if x in(('tok','('),('tok','[')): d+=1
        if x in(('tok',')'),('tok',']')): d-=1
        if d==0 and x==('tok',','): a.append([])
        else: a[-1].append(x)
    return a
def stmt(p,env,rep):
    if p.is_('{'):
        p.next(); out=[]
        while not p.is_('}'): out.append(stmt(p,env,rep))
        p.next(); return ('block',out)
    k,v=p.next()
    if v=='for':
        h=p.paren(); a=[]; cur=[]
        for x in h:
            if x==('tok',';'): a.append(cur);cur=[]
            else: cur.append(x)
        a.append(cur); b=stmt(p,env,rep); return ('for',a[0][1][1],pyexpr(a[0][3:]),pyexpr(a[1]),b)
    if v=='if':
        h=p.paren(); b=stmt(p,env,rep); e=None
        if p.is_('else'): p.next(); e=stmt(p,env,rep)
        return ('if',pyexpr(h),b,e)
    if v=='switch':
        h=p.paren(); p.want('{'); cases=[]
        while not p.is_('}'):
            labels=[]
            while p.is_('case') or p.is_('default'):
                w=p.next()[1]
                if w=='default': labels.append(None)
                else:
                    e=[]
                    while not p.is_(':'): e.append(p.next())
                    labels.append(pyexpr(e))
                p.want(':')
            body=[]
            while not (p.is_('case') or p.is_('default') or p.is_('}')): body.append(stmt(p,env,rep))
            cases.append((labels,body))
        p.next(); return ('switch',pyexpr(h),cases)
    if v=='break': p.want(';'); return ('break',)
    if re.match(r'(ASSERT|EXPECT)_\w+',v):
        a=split_args(p.paren()); p.want(';'); return ('assert',v.split('_',1)[1],[pyexpr(x) for x in a])
    if v==';': return ('block',[])
    raise Exception((k,v,p.t[p.i:p.i+6]))
class Brk(Exception): pass
def run(s,env,rep):
    k=s[0]
    if k=='block':
        for x in s[1]: run(x,env,rep)
    elif k=='for':
        env[s[1]]=eval(s[2],env)
        while eval(s[3],env):
            run(s[4],env,rep); env[s[1]]+=1
    elif k=='if':
        if eval(s[1],env): run(s[2],env,rep)
        elif s[3]: run(s[3],env,rep)
    elif k=='switch':
        v=eval(s[1],env); hit=False
        try:
            for labels,body in s[2]:
                if not hit and any(l is not None and eval(l,env)==v for l in labels): hit=True
                if hit:
                    for x in body: run(x,env,rep)
            if not hit:
                for labels,body in s[2]:
                    if None in labels: hit=True
                    if hit:
                        for x in body: run(x,env,rep)
        except Brk: pass
    elif k=='break': raise Brk()
    elif k=='assert':
        try: vals=[eval(x,env) for x in s[2]]
        except Exception as e: rep.append((False,s,repr(e),env.get('i'))); return
        op=s[1]
        ok={'EQ':lambda a,b:a==b,'NE':lambda a,b:a!=b,'TRUE':lambda a:bool(a),'FALSE':lambda a:not a,'GE':lambda a,b:a>=b,'LE':lambda a,b:a<=b,'LT':lambda a,b:a<b,'GT':lambda a,b:a>b}[op](*vals)
        rep.append((ok,s,vals,env.get('i')))
def tests(c):
    """yields (suite, name, stmt), and returns main's tokens"""
    t=lex(c); p=P(t); out=[]; main=None
    while p.i<len(t):
        k,v=p.next()
        if v=='TEST':
            a=split_args(p.paren()); body=stmt(p,None,None); out.append((a[0][0][1],a[1][0][1],body))
        elif v=='main':
            main=t[p.i:]; break
    return out,main
def caps(main):
    r={}
    for i,(k,v) in enumerate(main):
        if v.startswith('cpuinfo_set_'):
            q=P(main); q.i=i+1; r[v[len('cpuinfo_set_'):]]=eval(pyexpr(q.paren()),{'int':int})
    return r
