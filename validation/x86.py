"""Runs the x86 Linux model on the project's mock devices and checks the project's own tests."""
import re,sys
from show import *
from devices import *
from arm import O,coqstr,EN
GET=getters(X86)
def used(p): return p in ('/proc/cpuinfo',)or re.fullmatch(r'/sys/devices/system/cpu/(kernel_max|possible|present)',p)
def evaluate(name,arch):
    files,props,c,arr=device(name,arch); ts,main=tests(c)
    fl='; '.join('(%s, %s)'%(coqstr(p),coqstr(v)) for p,v in files.items() if used(p))
    en='; '.join('(%s)'%', '.join(str(int(str(e.get(k,0)),0)) for k in ('input_eax','input_ecx','eax','ebx','ecx','edx')) for e in arr['cpuid_dump'])
    src=f'''From Val Require Import ShowX.
From Verif Require Import Base.
From Coq Require Import String.
Set Printing Width 100000. Set Printing Depth 100000.
Definition files : list (string * string) := [{fl}]%string.
Open Scope N_scope.
Definition leaves : list (N * N * N * N * N * N) := [{en}].
Eval vm_compute in show {'true' if arch=='x86' else 'false'} leaves files.
'''
    r=coqc(f'X_{re.sub("[^a-z0-9]","_",name)}_{arch}',src)
    if r.returncode: return None,r.stderr[:500]
    return value(r),ts
def check(name,arch):
    v,ts=evaluate(name,arch)
    if v is None: return 'COQ ERROR '+ts
    (tabs,pname,isa)=v
    if not tabs: return 'NOT INITIALIZED'
    (P_,C,CL,PK,L1I,L1D,L2,L3,L4,of,mx)=tabs
    opt=lambda f,x: None if x==0 else f(x-1)
    env=dict(EN)
    def tab(l,f): return lambda i: f(i) if 0<=i<len(l) else None
    def cache(kind,l):
        return tab(l,lambda i:O(kind,i,**dict(zip('size associativity sets partitions line_size flags processor_start processor_count'.split(),l[i]))))
    l1i,l1d,l2,l3,l4=cache('l1i',L1I),cache('l1d',L1D),cache('l2',L2),cache('l3',L3),cache('l4',L4)
    pk=tab(PK,lambda i:O('pk',i,name=''.join(map(chr,pname)).split(chr(0))[0],**dict(zip('processor_start processor_count core_start core_count cluster_start cluster_count'.split(),PK[i]))))
    cl=tab(CL,lambda i:O('cl',i,processor_start=CL[i][0],processor_count=CL[i][1],core_start=CL[i][2],core_count=CL[i][3],cluster_id=CL[i][4],package=opt(pk,CL[i][5]),vendor=CL[i][6],uarch=CL[i][7],cpuid=CL[i][8]))
    co=tab(C,lambda i:O('co',i,processor_start=C[i][0],processor_count=C[i][1],core_id=C[i][2],cluster=opt(cl,C[i][3]),package=opt(pk,C[i][4]),vendor=C[i][5],uarch=C[i][6],cpuid=C[i][7]))
    def cc(i): return {n:(opt(f,o[i]) if i<len(o) else None) for n,f,o in zip('l1i l1d l2 l3 l4'.split(),(l1i,l1d,l2,l3,l4),of)}
    pr=tab(P_,lambda i:O('pr',i,smt_id=P_[i][0],core=opt(co,P_[i][1]),cluster=opt(cl,P_[i][2]),package=opt(pk,P_[i][3]),linux_id=P_[i][4],apic_id=P_[i][5],cache=O('cc',i,**cc(i))))
    env.update(cpuinfo_get_processor=pr,cpuinfo_get_core=co,cpuinfo_get_cluster=cl,cpuinfo_get_package=pk,cpuinfo_get_l1i_cache=l1i,cpuinfo_get_l1d_cache=l1d,
      cpuinfo_get_l2_cache=l2,cpuinfo_get_l3_cache=l3,cpuinfo_get_l4_cache=l4)
    for n,l in dict(processors=P_,cores=C,clusters=CL,packages=PK,l1i_caches=L1I,l1d_caches=L1D,l2_caches=L2,l3_caches=L3,l4_caches=L4).items():
        env['cpuinfo_get_'+n]=(lambda l:lambda:(True if l else None))(l); env[f'cpuinfo_get_{n}_count']=(lambda l:lambda:len(l))(l)
    for g,x in zip(GET,isa): env['cpuinfo_has_x86_'+g]=(lambda x:lambda:x)(x)
    env.update(std_string=lambda a,n:a[:n], strnlen=lambda a,n:min(len(a),n), int=int, CPUINFO_PACKAGE_NAME_MAX=EN.get('CPUINFO_PACKAGE_NAME_MAX',48))
    bad=[];n=0
    for s,t,b in ts:
        if t.startswith('DISABLED'): continue
        rep=[]; run(b,env,rep); n+=len(rep)
        bad+=[(s,t)+r for r in rep if not r[0]]
    return n,len(ts),bad
if __name__=='__main__':
    library('ShowX',X86)
    cm=open('/repo/CMakeLists.txt').read().split('\n')
    devs=[m.group(1) for l in cm[775:808] for m in [re.search(r'test/mock/(\S+)\.cc',l)] if m]
    total=0
    for d in devs:
      for a in ('x86','x86_64'):
        r=check(d,a)
        if isinstance(r,str): print(d,a,r,flush=True)
        else:
            total+=r[0]; print(d,a,r[0],'checks',r[1],'tests',len(r[2]),'bad',flush=True)
            for x in r[2][:6]: print('    ',x[0],x[1],x[3],x[4],x[5])
    print('total',total)
