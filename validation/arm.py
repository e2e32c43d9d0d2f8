"""Runs the ARM Linux model on the project's mock devices and checks the project's own tests.
Usage: arm.py [device ...]"""
import re,sys
from show import *
from devices import *
cm=open('/repo/CMakeLists.txt').read().split('\n')
def section(a,b): return [m.group(1) for l in cm[a:b] for m in [re.search(r'test/mock/(\S+)\.cc',l)] if m]
only32=section(397,578); both=section(579,775)
GET=getters(ARM)
def coqstr(s): return '"'+s.replace('"','""')+'"'
def used(p):
    return p=='/proc/cpuinfo' or re.fullmatch(r'/sys/devices/system/cpu/(kernel_max|possible|present|cpu\d+/(cpufreq/cpuinfo_m(ax|in)_freq|topology/(physical_package_id|cluster_cpus_list|core_siblings_list)))',p)
PROPS=["ro.product.board","ro.board.platform","ro.mediatek.platform","ro.arch","ro.chipname","ro.hardware.chipname"]
class O:
    def __init__(s,kind,i,**k): s.kind=kind; s.i=i; s.__dict__.update(k)
    def __eq__(s,o): return isinstance(o,O) and (s.kind,s.i)==(o.kind,o.i)
    def __bool__(s): return True
def evaluate(name,arch):
    files,props,c,arr=device(name,arch); ts,main=tests(c); k=caps(main)
    android='properties' in arr
    fl='; '.join('(%s, %s)'%(coqstr(p),coqstr(v)) for p,v in files.items() if used(p))
    pl='; '.join('(%s, %s)'%(coqstr(p),coqstr(props[p])) for p in PROPS if p in props)
    b=lambda x:'true' if x else 'false'
    src=f'''From Val Require Import Show.
From Verif Require Import Base ArmIsaModel.
From Coq Require Import String.
Set Printing Width 100000. Set Printing Depth 100000.
Open Scope string_scope.
Definition files : list (string * string) := [{fl}].
Definition props : list (string * string) := [{pl}].
Eval vm_compute in show {b(arch=='arm')} {b(android)} {k.get('hwcap',0)} {k.get('hwcap2',0)} (Target true {b(arch!='arm')} {k.get('wcid',0)} 0) files props.
'''
    r=coqc(f'D_{re.sub("[^a-z0-9]","_",name)}_{arch}',src)
    if r.returncode: return None,r.stderr[:500]
    return value(r),(ts,k)
EN=enums()
def check(name,arch):
    v,rest=evaluate(name,arch)
    if v is None: return 'COQ ERROR '+rest
    (tabs,pname,isa)=v; ts,k=rest
    if not tabs: return 'NOT INITIALIZED'
    (P_,C,CL,PK,L1I,L1D,L2,L3,l2of,l3of,mx,U)=tabs
    opt=lambda f,x: None if x==0 else f(x-1)
    env=dict(EN)
    def tab(l,f): return lambda i: f(i) if 0<=i<len(l) else None
    def cache(kind,l):
        return tab(l,lambda i:O(kind,i,**dict(zip('size associativity sets partitions line_size flags processor_start processor_count'.split(),l[i]))))
    l1i,l1d,l2,l3=cache('l1i',L1I),cache('l1d',L1D),cache('l2',L2),cache('l3',L3)
    pk=tab(PK,lambda i:O('pk',i,name=''.join(map(chr,pname)),**dict(zip('processor_start processor_count core_start core_count cluster_start cluster_count'.split(),PK[i]))))
    cl=tab(CL,lambda i:O('cl',i,processor_start=CL[i][0],processor_count=CL[i][1],core_start=CL[i][2],core_count=CL[i][3],cluster_id=CL[i][4],package=opt(pk,CL[i][5]),vendor=CL[i][6],uarch=CL[i][7],midr=CL[i][8]))
    co=tab(C,lambda i:O('co',i,processor_start=C[i][0],processor_count=C[i][1],core_id=C[i][2],cluster=opt(cl,C[i][3]),package=opt(pk,C[i][4]),vendor=C[i][5],uarch=C[i][6],midr=C[i][7]))
    pr=tab(P_,lambda i:O('pr',i,smt_id=P_[i][0],core=opt(co,P_[i][1]),cluster=opt(cl,P_[i][2]),package=opt(pk,P_[i][3]),linux_id=P_[i][4],
        cache=O('cc',i,l1i=l1i(i),l1d=l1d(i),l2=opt(l2,l2of[0][i]),l3=opt(l3,l3of[0][i]),l4=None)))
    env.update(cpuinfo_get_processor=pr,cpuinfo_get_core=co,cpuinfo_get_cluster=cl,cpuinfo_get_package=pk,cpuinfo_get_l1i_cache=l1i,cpuinfo_get_l1d_cache=l1d,
      cpuinfo_get_l2_cache=l2,cpuinfo_get_l3_cache=l3)
    for n,l in dict(processors=P_,cores=C,clusters=CL,packages=PK,l1i_caches=L1I,l1d_caches=L1D,l2_caches=L2,l3_caches=L3,l4_caches=[]).items():
        env['cpuinfo_get_'+n]=(lambda l:lambda:(True if l else None))(l); env[f'cpuinfo_get_{n}_count']=(lambda l:lambda:len(l))(l)
    for g,x in zip(GET,isa): env['cpuinfo_has_arm_'+g]=(lambda x:lambda:x)(x)
    env.update(std_string=lambda a,n:a[:n], strnlen=lambda a,n:min(len(a),n), int=int, CPUINFO_PACKAGE_NAME_MAX=EN.get('CPUINFO_PACKAGE_NAME_MAX',48))
    bad=[];n=0
    for s,t,b in ts:
        if t.startswith('DISABLED'): continue
        rep=[]; run(b,env,rep); n+=len(rep)
        bad+=[(s,t)+r for r in rep if not r[0]]
    return n,len(ts),bad
if __name__=='__main__':
    library('Show',ARM)
    todo=[(d,'arm') for d in only32+both]+[(d,'arm64') for d in both]
    if len(sys.argv)>1: todo=[x for x in todo if x[0] in sys.argv[1:]]
    total=0
    for d,a in todo:
        r=check(d,a)
        if isinstance(r,str): print(d,a,r,flush=True)
        else:
            total+=r[0]; print(d,a,r[0],'checks',len(r[2]),'bad',flush=True)
            for x in r[2][:6]: print('    ',x[0],x[1],x[3],x[4],x[5])
    print('total',total)
