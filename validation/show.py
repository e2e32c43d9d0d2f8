"""The Coq code that runs the model on recorded data, and the calls of coqc."""
import os, re, subprocess, tempfile
HERE = os.path.dirname(os.path.abspath(__file__))
THEORIES = os.path.join(HERE, '..', 'rocq', 'theories')  # must have been built
WORK = tempfile.mkdtemp(prefix='validation')
# The ARM model on the files and properties of a device.
ARM = r'''From Verif Require Import Base Sorting Text LinuxTextModel TopologySpec ArmMidrModel ArmClustersModel ArmClusterMidrModel ArmCpuinfoModel
  ArmLinuxModel ArmUarchModel ArmCacheModel ArmDecodersModel ArmChipsetModel ArmPackageModel ArmIsaModel.
From Verif Require ArmClustersSample.
From Coq Require Import String.
Open Scope nat_scope.
Definition on (o : option nat) : N := match o with None => 0 | Some n => N.of_nat (S n) end.
Definition nn := N.of_nat.
Definition s_processor (p : processor) : list N := [nn (p_smt_id p); on (p_core p); on (p_cluster p); on (p_package p); p_linux_id p; p_apic_id p].
Definition s_core (c : core) := [nn (c_processor_start c); nn (c_processor_count c); nn (c_core_id c); on (c_cluster c); on (c_package c); c_vendor c; c_uarch c; c_cpuid c].
Definition s_cluster (c : cluster) := [nn (cl_processor_start c); nn (cl_processor_count c); nn (cl_core_start c); nn (cl_core_count c); nn (cl_cluster_id c); on (cl_package c); cl_vendor c; cl_uarch c; cl_cpuid c].
Definition s_package (p : package) := [nn (pk_processor_start p); nn (pk_processor_count p); nn (pk_core_start p); nn (pk_core_count p); nn (pk_cluster_start p); nn (pk_cluster_count p)].
Definition s_cache (c : cache) := let g := ca_geometry c in [g_size g; g_associativity g; g_sets g; g_partitions g; g_line_size g; g_flags g; nn (ca_processor_start c); nn (ca_processor_count c)].
Definition s_tables (t : arm_tables) : list (list (list N)) :=
  [map s_processor (at_processors t); map s_core (at_cores t); map s_cluster (at_clusters t); [s_package (at_package t)];
   map s_cache (at_l1i t); map s_cache (at_l1d t); map s_cache (at_l2 t); map s_cache (at_l3 t);
   [map on (at_l2_of t)]; [map on (at_l3_of t)]; [[at_max_cache_size t; at_linux_cpu_max t]];
   map (fun u => [au_uarch u; au_midr u; nn (au_processors u); nn (au_cores u)]) (at_uarchs t)].
Definition getters : list getter :=
  [Has_thumb ; Has_thumb2 ; Has_v5e ; Has_v6 ; Has_v6k ; Has_v7 ; Has_v7mp ; Has_v8 ; Has_idiv ; Has_vfpv2 ; Has_vfpv3
  ; Has_vfpv3_d32 ; Has_vfpv3_fp16 ; Has_vfpv3_fp16_d32 ; Has_vfpv4 ; Has_vfpv4_d32 ; Has_fp16_arith ; Has_bf16 ; Has_wmmx
  ; Has_wmmx2 ; Has_neon ; Has_neon_fp16 ; Has_neon_fma ; Has_neon_v8 ; Has_atomics ; Has_neon_rdm ; Has_neon_fp16_arith ; Has_fhm
  ; Has_neon_dot ; Has_neon_bf16 ; Has_jscvt ; Has_fcma ; Has_i8mm ; Has_aes ; Has_sha1 ; Has_sha2 ; Has_pmull ; Has_crc32 ; Has_sve
  ; Has_sve_bf16 ; Has_sve2 ; Has_sme ; Has_sme2 ; Has_sme2p1 ; Has_sme_i16i32 ; Has_sme_bi32i32 ; Has_sme_b16b16 ; Has_sme_f16f16].
Definition eqs (a b : list N) : bool := if list_eq_dec N.eq_dec a b then true else false.
Definition lookup (l : list (string * string)) (k : list N) : list N := match find (fun e => eqs (text (fst e)) k) l with Some e => text (snd e) | None => [] end.
Definition lookup_file (l : list (string * string)) (k : string) : file :=
  match find (fun e => String.eqb (fst e) k) l with Some e => File (Some (text (snd e))) [] | None => File None [] end.
Fixpoint dec (fuel n : nat) (acc : string) : string :=
  let acc' := String (Ascii.ascii_of_nat (48 + n mod 10)) acc in
  match fuel with O => acc' | S f => if n <? 10 then acc' else dec f (n / 10) acc' end.
Definition of_files (l : list (string * string)) : arm_files :=
  let top k := lookup_file l (append "/sys/devices/system/cpu/" k) in
  ArmFiles (top "kernel_max"%string) (top "possible"%string) (top "present"%string) (top "possible"%string) (top "present"%string)
    (lookup_file l "/proc/cpuinfo")
    (fun c => let cpu k := top (append "cpu" (append (dec 5 c "") k)) in
       ACpuFiles (cpu "/cpufreq/cpuinfo_max_freq"%string) (cpu "/cpufreq/cpuinfo_min_freq"%string) (cpu "/topology/physical_package_id"%string)
         (SiblingFiles (cpu "/topology/cluster_cpus_list"%string) (cpu "/topology/core_siblings_list"%string))).
Definition decoder (arm32 android : bool) props := if android then android_decoder arm32 (lookup props) else linux_decoder arm32.
Definition isa_of (arm32 android : bool) (hwcap hwcap2 : N) (t : target) (files props : list (string * string)) : res (option (list bool)) :=
  with_lists true 1024 (fun _ => true) (of_files files) None (fun mask flags =>
    do r <- read_board true arm32 mask (of_files files) flags;
    match r with
    | None => Ok None
    | Some (hardware, revision, usable, ps) => do c <- decoder arm32 android props hardware revision usable;
        Ok (Some (map (has_arm arm32 (arm_linux_isa arm32 (Getauxval hwcap hwcap2) t (seen c) ps)) getters))
    end).
Definition show (arm32 android : bool) (hwcap hwcap2 : N) (t : target) (files props : list (string * string)) :=
  let d := decoder arm32 android props in
  (match arm_linux_init true arm32 android ArmClustersSample.junk 1024 (isort (cmp_arm_linux_processor arm32)) (fun _ => true)
    (library_decoders (Build arm32 arm32 (negb arm32) android) (chipset_by d)) (of_files files) with
   | Ok (AOutcome (Some t) _ _) => s_tables t
   | _ => []
   end,
   match arm_package_name true arm32 1024 (fun _ => true) d (of_files files) with Ok (Some n) => n | _ => [] end,
   match isa_of arm32 android hwcap hwcap2 t files props with Ok (Some l) => l | _ => [] end).
'''
# The x86 model on the files and the CPUID dump of a device.
X86 = r'''From Verif Require Import Base Sorting Text LinuxTextModel TopologySpec X86CpuinfoModel X86LinuxModel X86DescriptorModel X86DecodeModel X86NameModel X86PackageModel X86IsaModel CpuidDumpModel.
From Coq Require Import String.
Open Scope nat_scope.
Definition on (o : option nat) : N := match o with None => 0 | Some n => N.of_nat (S n) end.
Definition nn := N.of_nat.
Definition s_processor (p : processor) : list N := [nn (p_smt_id p); on (p_core p); on (p_cluster p); on (p_package p); p_linux_id p; p_apic_id p].
Definition s_core (c : core) := [nn (c_processor_start c); nn (c_processor_count c); nn (c_core_id c); on (c_cluster c); on (c_package c); c_vendor c; c_uarch c; c_cpuid c].
Definition s_cluster (c : cluster) := [nn (cl_processor_start c); nn (cl_processor_count c); nn (cl_core_start c); nn (cl_core_count c); nn (cl_cluster_id c); on (cl_package c); cl_vendor c; cl_uarch c; cl_cpuid c].
Definition s_package (p : package) := [nn (pk_processor_start p); nn (pk_processor_count p); nn (pk_core_start p); nn (pk_core_count p); nn (pk_cluster_start p); nn (pk_cluster_count p)].
Definition s_cache (c : cache) := let g := ca_geometry c in [g_size g; g_associativity g; g_sets g; g_partitions g; g_line_size g; g_flags g; nn (ca_processor_start c); nn (ca_processor_count c)].
Definition s_tables (t : tables) : list (list (list N)) :=
  [map s_processor (t_processors t); map s_core (t_cores t); map s_cluster (t_clusters t); map s_package (t_packages t);
   map s_cache (t_l1i t); map s_cache (t_l1d t); map s_cache (t_l2 t); map s_cache (t_l3 t); map s_cache (t_l4 t);
   [map on (t_l1i_of t); map on (t_l1d_of t); map on (t_l2_of t); map on (t_l3_of t); map on (t_l4_of t)]; [[t_max_cache_size t; t_linux_cpu_max t]]].
Definition getters : list getter :=
  [Has_rdtsc ; Has_rdtscp ; Has_rdpid ; Has_clzero ; Has_mwait ; Has_mwaitx ; Has_fxsave ; Has_xsave
; Has_fpu ; Has_mmx ; Has_mmx_plus ; Has_3dnow ; Has_3dnow_plus ; Has_3dnow_geode ; Has_prefetch
; Has_prefetchw ; Has_prefetchwt1 ; Has_daz ; Has_sse ; Has_sse2 ; Has_sse3 ; Has_ssse3 ; Has_sse4_1
; Has_sse4_2 ; Has_sse4a ; Has_misaligned_sse ; Has_avx ; Has_avxvnni ; Has_fma3 ; Has_fma4 ; Has_xop
; Has_f16c ; Has_avx2 ; Has_avx512f ; Has_avx512pf ; Has_avx512er ; Has_avx512cd ; Has_avx512dq
; Has_avx512bw ; Has_avx512vl ; Has_avx512ifma ; Has_avx512vbmi ; Has_avx512vbmi2 ; Has_avx512bitalg
; Has_avx512vpopcntdq ; Has_avx512vnni ; Has_avx512bf16 ; Has_avx512fp16 ; Has_avx512vp2intersect
; Has_avx512_4vnniw ; Has_avx512_4fmaps ; Has_amx_bf16 ; Has_amx_tile ; Has_amx_int8 ; Has_amx_fp16
; Has_avx_vnni_int8 ; Has_avx_vnni_int16 ; Has_avx_ne_convert ; Has_avx10_1 ; Has_avx10_2 ; Has_hle
; Has_rtm ; Has_xtest ; Has_mpx ; Has_cmov ; Has_cmpxchg8b ; Has_cmpxchg16b ; Has_clwb ; Has_movbe
; Has_lahf_sahf ; Has_lzcnt ; Has_popcnt ; Has_tbm ; Has_bmi ; Has_bmi2 ; Has_adx ; Has_aes ; Has_vaes
; Has_pclmulqdq ; Has_vpclmulqdq ; Has_gfni ; Has_rdrand ; Has_rdseed ; Has_sha].
Definition lookup_file (l : list (string * string)) (k : string) : file :=
  match find (fun e => String.eqb (fst e) k) l with Some e => File (Some (text (snd e))) [] | None => File None [] end.
Definition of_files (l : list (string * string)) : linux_files :=
  let top k := lookup_file l (append "/sys/devices/system/cpu/" k) in
  LinuxFiles (top "kernel_max"%string) (top "possible"%string) (top "present"%string) (top "possible"%string) (top "present"%string)
    (lookup_file l "/proc/cpuinfo").
Definition show (x32 : bool) (l : list (N * N * N * N * N * N)) (files : list (string * string)) :=
  let b := Build x32 true in
  let m := replayed (map (fun e => let '(i, j, a, bb, c, d) := e in Entry i j (Regs a bb c d)) l) 7 65535 in
  let r := do x <- init_processor b m 64;
           x86_linux_init true 1024 (isort cmp_x86_linux_processor) (fun _ => true) x (of_files files) in
  (match r with Ok (Outcome (Some t) _) => s_tables t | _ => [] end,
   match detect_package_name b m (repeat 0%N 48) with Ok n => n | _ => [] end,
   map (has_x86 b (init_isa b m)) getters).
'''
# The models of the name parsers.
NAMES = r'''From Verif Require Import Base Text X86NameModel ArmChipsetModel.
From Coq Require Import String.
Open Scope N_scope.
Inductive how := Hardware | Tegra | Board | Platform | Mediatek | Arch | Chipname.
Definition name_of (r : res chip) (fix_ : chip -> res chip) : list N :=
  match r with
  | Ok c => if chp_series c =? se_unknown then []
            else match bind (fix_ c) chip_name with Ok n => n | _ => [1] end
  | _ => [2]
  end.
Definition one (arm32 : bool) (h : how) (s : list N) (cores frequency : N) : list N :=
  name_of (match h with
           | Hardware => from_hardware arm32 cores frequency false s
           | Tegra => from_hardware arm32 cores frequency true s
           | Board => from_board arm32 cores frequency s
           | Platform => from_platform arm32 cores frequency s
           | Mediatek => from_mediatek s
           | Arch => from_arch s
           | Chipname => from_chipname arm32 s
           end) (fixup arm32 cores frequency).
Definition all (arm32 : bool) (a b c d e f : list N) (cores frequency : N) : list N :=
  name_of (android_chip arm32 cores frequency (AndroidProperties a b c d e f [])) (fun c => Ok c).
Definition brand (s : list N) : list N :=
  match normalize_brand_string s (repeat 255 48) with Ok (n, _) => until_nul n | _ => [2] end.
'''
def coqc(name, source):
    with open(os.path.join(WORK, name + '.v'), 'w') as f: f.write(source)
    return subprocess.run(['timeout', '600', 'coqc', '-Q', THEORIES, 'Verif', '-Q', WORK, 'Val', os.path.join(WORK, name + '.v')], capture_output=True, text=True)
def value(r):
    out = r.stdout.split('= ', 1)[1].rsplit('\n     : ', 1)[0]
    return eval(re.sub(r'%\w+', '', out).replace(';', ',').replace('true', 'True').replace('false', 'False'))
def library(name, source):
    r = coqc(name, source)
    assert r.returncode == 0, r.stderr
def getters(source): return re.findall(r'Has_(\w+)', source.split('Definition getters')[1].split('].')[0])
