"""Checks the models of the name parsers against the expectations of test/name."""
from show import *
from devices import preprocess,lex,REPO
HOW={'parse_proc_cpuinfo_hardware':'Hardware','parse_proc_cpuinfo_hardware_tegra':'Tegra','parse_ro_product_board':'Board','parse_ro_board_platform':'Platform',
 'parse_ro_mediatek_platform':'Mediatek','parse_ro_arch':'Arch','parse_ro_chipname':'Chipname'}
def lst(s): return '['+'; '.join(str(ord(c)) for c in s)+']'
def calls(f,arm):
    toks=lex(preprocess(open(f'{REPO}/test/name/{f}.cc').read(),{'CPUINFO_ARCH_ARM':int(arm),'CPUINFO_ARCH_ARM64':int(not arm)}))
    for i,t in enumerate(toks):
        if t==('tok','EXPECT_EQ'):
            want=toks[i+2]; assert want[0]=='str' and toks[i+3]==('tok',','),toks[i:i+6]
            fn=toks[i+4][1]; j=i+6; args=[]
            while toks[j]!=('tok',')'):
                if toks[j]!=('tok',','): args.append(toks[j])
                j+=1
            yield want[1],fn,args
def term(fn,args,arm):
    b='true' if arm else 'false'
    strs=[a[1] for a in args if a[0]=='str']; nums=[int(a[1].rstrip('UL'),0) for a in args if a[0]=='tok']
    nums+=[1,0][len(nums):]
    if fn=='normalize_brand_string': return f'brand {lst(strs[0]+chr(0))}'
    strs=[s.split(chr(0))[0] for s in strs]
    if fn=='parse_chipset': return f'all {b} {" ".join(map(lst,strs))} {nums[0]} {nums[1]}'
    return f'one {b} {HOW[fn]} {lst(strs[0])} {nums[0]} {nums[1]}'
library('ShowN',NAMES)
total=0
for f in 'brand-string proc-cpuinfo-hardware ro-product-board ro-board-platform ro-mediatek-platform ro-arch ro-chipname android-properties'.split():
    for arm in (True,False):
        if f=='brand-string' and not arm: continue
        cs=list(calls(f,arm))
        src='From Val Require Import ShowN.\nFrom Verif Require Import Base.\nOpen Scope N_scope.\nSet Printing Width 1000000. Set Printing Depth 1000000.\nEval vm_compute in [\n'+';\n'.join(term(fn,a,arm) for _,fn,a in cs)+'].\n'
        n='N_'+f.replace('-','_')+('_32' if arm else '_64'); r=coqc(n,src)
        if r.returncode: print(f,arm,r.stderr[:400]); continue
        out=value(r)
        assert len(out)==len(cs)
        bad=[(w,''.join(map(chr,o)),fn,a) for (w,fn,a),o in zip(cs,out) if w!=''.join(map(chr,o))]
        total+=len(cs); print(f,'arm' if arm else 'arm64',len(cs),'checks',len(bad),'bad')
        for x in bad[:12]: print('   ',x)
print('total',total)
