"""Checks the model of src/arm/cache.c against the expectations of test/arm-cache.cc."""
import re
from show import *
from devices import preprocess, enums, REPO
SHOW = '''From Verif Require Import Base TopologySpec ArmMidrModel ArmUarchModel ArmClusterMidrModel ArmCacheModel.
Definition sizes (arm32 android : bool) (uarch cores midr vendor series model cluster version : N) : list N :=
  match decode_cache (Build arm32 arm32 (negb arm32) android) uarch (N.to_nat cores) midr (Chipset vendor series model) (N.to_nat cluster) version with
  | Ok (a, b, c, d) => map g_size [a; b; c; d]
  | _ => []
  end.
'''
EN = enums()
api = open(REPO + '/src/arm/api.h').read()
for m in re.finditer(r'enum\s+cpuinfo_arm_chipset_\w+\s*\{(.*?)\};', api, re.S):
    v = -1
    for e in re.sub(r'/\*.*?\*/', '', m.group(1), flags=re.S).split(','):
        e = e.strip()
        if not e: continue
        k, *x = [y.strip() for y in e.split('=')]
        v = int(x[0], 0) if x else v + 1
        EN[k] = v
def number(s): return int(eval(re.sub(r'UINT32_C\((.*?)\)', r'\1', s), dict(EN)))
def cases(arm32):
    src = preprocess(open(REPO + '/test/arm-cache.cc').read(), {'CPUINFO_ARCH_ARM': int(arm32), 'CPUINFO_ARCH_ARM64': int(not arm32)})
    for t in re.split(r'^TEST', src, flags=re.M)[1:]:
        name = t[1:t.index(')')]
        chip = dict(re.findall(r'\.(\w+) = (\w+)', t[:t.index('};')]))
        t = re.sub(r'\s+', ' ', t)
        loop = re.search(r'for \(uint32_t (\w+) = (\d+); \w+ < (\d+)', t)
        calls = []; checks = []
        for c in re.finditer(r'cpuinfo_arm_decode_cache\((.*?)\);|EXPECT_EQ\(([^;]*?), (\w+)\.size\)', t):
            if c.group(1): calls.append([x.strip() for x in c.group(1).split(',')])
            else:
                k, args = [(args[6:].index('&' + c.group(3)), args) for args in calls if '&' + c.group(3) in args][-1]
                for i in range(int(loop.group(2)), int(loop.group(3))) if loop and loop.group(1) in args else [None]:
                    x = [str(i) if loop and y == loop.group(1) else y for y in args]
                    yield name, [number(y) for y in x[:3]] + [EN[chip['vendor']], EN[chip['series']], int(chip.get('model', '0')), number(x[4]), number(x[5])], k, number(c.group(2))
library('ShowC', SHOW)
for arm32 in (True, False):
    cs = list(cases(arm32))
    src = 'From Val Require Import ShowC.\nFrom Verif Require Import Base.\nOpen Scope N_scope.\nSet Printing Width 100000. Set Printing Depth 100000.\nEval vm_compute in [' + \
        ';\n'.join('sizes %s true %s' % ('true' if arm32 else 'false', ' '.join(map(str, a))) for _, a, _, _ in cs) + '].\n'
    r = coqc('C_%d' % arm32, src)
    assert r.returncode == 0, r.stderr
    bad = [(name, a, k, e, got) for (name, a, k, e), got in zip(cs, value(r)) if not got or got[k] != e]
    print('arm' if arm32 else 'arm64', len(cs), 'checks', len(bad), 'bad')
    for x in bad: print('   ', x)
