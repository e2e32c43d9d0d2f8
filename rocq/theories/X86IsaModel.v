(** Model of src/x86/isa.c and of the getters cpuinfo_has_x86_* of
    include/cpuinfo.h.  Definitions only. *)
From Verif Require Import Base X86DescriptorModel X86DecodeModel.
Open Scope N_scope.

(** The fields of struct cpuinfo_x86_isa, include/cpuinfo.h:755-869. *)
Inductive feature :=
| F_rdtsc | F_rdtscp | F_rdpid | F_sysenter | F_syscall | F_msr | F_clzero | F_clflush | F_clflushopt
| F_mwait | F_mwaitx | F_emmx | F_fxsave | F_xsave | F_fpu | F_mmx | F_mmx_plus | F_three_d_now
| F_three_d_now_plus | F_three_d_now_geode | F_prefetch | F_prefetchw | F_prefetchwt1 | F_daz | F_sse
| F_sse2 | F_sse3 | F_ssse3 | F_sse4_1 | F_sse4_2 | F_sse4a | F_misaligned_sse | F_avx | F_avxvnni
| F_fma3 | F_fma4 | F_xop | F_f16c | F_avx2 | F_avx512f | F_avx512pf | F_avx512er | F_avx512cd | F_avx512dq
| F_avx512bw | F_avx512vl | F_avx512ifma | F_avx512vbmi | F_avx512vbmi2 | F_avx512bitalg | F_avx512vpopcntdq
| F_avx512vnni | F_avx512bf16 | F_avx512fp16 | F_avx512vp2intersect | F_avx512_4vnniw | F_avx512_4fmaps
| F_avx10_1 | F_avx10_2 | F_amx_bf16 | F_amx_tile | F_amx_int8 | F_amx_fp16 | F_avx_vnni_int8 | F_avx_vnni_int16
| F_avx_ne_convert | F_hle | F_rtm | F_xtest | F_mpx | F_cmov | F_cmpxchg8b | F_cmpxchg16b | F_clwb
| F_movbe | F_lahf_sahf | F_fs_gs_base | F_lzcnt | F_popcnt | F_tbm | F_bmi | F_bmi2 | F_adx | F_aes
| F_vaes | F_pclmulqdq | F_vpclmulqdq | F_gfni | F_rdrand | F_rdseed | F_sha | F_rng | F_ace | F_ace2
| F_phe | F_pmm | F_lwp.

(** !!(x & mask). *)
Definition any (x mask : N) : bool := negb (N.land x mask =? 0).
(** (x & mask) == mask. *)
Definition all (x mask : N) : bool := N.land x mask =? mask.

(** src/x86/isa.c:36-832.  Fields that do not exist in a build are false.  The
    numbers are the lines of the assignments. *)
Definition detect_isa (b : build) (m : cpu) (basic extended : regs) (max_base max_extended vendor uarch : N) : feature -> bool :=
  let x32 := b_x86_32 b in
  let cyrix := (vendor =? vendor_cyrix) || (vendor =? vendor_nsc) in
  let s0 := if 7 <=? max_base then cpuidex m 7 0 else regs0 in
  let s1 := if 7 <=? max_base then cpuidex m 7 1 else regs0 in
  let s2 := if 7 <=? max_base then cpuidex m 0x24 0 else regs0 in
  let capacity := if 0x80000008 <=? max_extended then cpuid m 0x80000008 else regs0 in
  (* 56-114 *)
  let osxsave := all (ecx basic) 0x0C000000 in
  let xcr0_valid_bits :=
    if 0xD <=? max_base then N.lor (N.shiftl (edx (cpuidex m 0xD 0)) 32) (eax (cpuidex m 0xD 0)) else 0 in
  let enabled mask := if osxsave && all xcr0_valid_bits mask then all (xcr0 m) mask else false in
  let avx_regs := enabled 0x06 in
  let avx512_regs := enabled 0xE6 in
  let mpx_regs := enabled 0x18 in
  (* 757-813 *)
  let padlock_pair mask :=
    if vendor =? vendor_via then
      if 0xC0000001 <=? eax (cpuid m 0xC0000000) then all (edx (cpuid m 0xC0000001)) mask else false
    else false in
  (* 123 *) let rdtsc := x32 && any (N.lor (edx basic) (edx extended)) 0x00000010 in
  (* 130 *) let sysenter := any (edx basic) 0x00000800 in
  (* 137 *) let syscall := x32 && any (edx extended) 0x00000800 in
  (* 145 *) let msr := any (N.lor (edx basic) (edx extended)) 0x00000020 in
  (* 152 *) let clzero := any (ebx capacity) 0x00000001 in
  (* 158 *) let clflush := any (edx basic) 0x00080000 in
  (* 164 *) let clflushopt := any (ebx s0) 0x00800000 in
  (* 170 *) let mwait := any (ecx basic) 0x00000008 in
  (* 176 *) let mwaitx := any (ecx extended) 0x20000000 in
  (* 188 *) let emmx := x32 && cyrix && any (edx extended) 0x01000000 in
  (* 192 *) let fxsave := if x32 && cyrix then false else any (N.lor (edx basic) (edx extended)) 0x01000000 in
  (* 200 *) let xsave := any (ecx basic) 0x04000000 in
  (* 208 *) let fpu := x32 && any (N.lor (edx basic) (edx extended)) 0x00000001 in
  (* 215 *) let mmx := x32 && any (N.lor (edx basic) (edx extended)) 0x00800000 in
  (* 222 *) let mmx_plus := x32 && negb (N.lor (N.land (edx basic) 0x02000000) (N.land (edx extended) 0x00400000) =? 0) in
  (* 229 *) let three_d_now := any (edx extended) 0x80000000 in
  (* 235 *) let three_d_now_plus := any (edx extended) 0x40000000 in
  (* 242 *) let three_d_now_geode := x32 && three_d_now_plus && (uarch =? uarch_geode) in
  (* 267-269, 277 *) let prefetch := if vendor =? vendor_intel then false
    else if (vendor =? vendor_amd) || (vendor =? vendor_hygon) then negb (N.lor (N.land (ecx extended) 0x00000100) (N.land (edx extended) 0xE0000000) =? 0)
    else any (edx extended) 0xC0000000 in
  (* 296-298, 303-305 *) let prefetchw := if (vendor =? vendor_amd) || (vendor =? vendor_hygon) then negb (N.lor (N.land (ecx extended) 0x00000100) (N.land (edx extended) 0xE0000000) =? 0)
    else negb (N.lor (N.land (ecx extended) 0x00000100) (N.land (edx extended) 0xC0000000) =? 0) in
  (* 314 *) let prefetchwt1 := any (ecx s0) 0x00000001 in
  (* 321 *) let sse := x32 && any (edx basic) 0x02000000 in
  (* 327 *) let sse2 := x32 && any (edx basic) 0x04000000 in
  (* 334 *) let sse3 := any (ecx basic) 0x00000001 in
  (* 342, 357 *) let daz := x32 && (if sse3 then true else if sse && fxsave then any (mxcsr_mask m) 0x00000040 else false) in
  (* 366 *) let ssse3 := any (ecx basic) 0x0000200 in
  (* 372 *) let sse4_1 := any (ecx basic) 0x00080000 in
  (* 378 *) let sse4_2 := any (ecx basic) 0x00100000 in
  (* 384 *) let sse4a := any (ecx extended) 0x00000040 in
  (* 390 *) let misaligned_sse := any (ecx extended) 0x00000080 in
  (* 396 *) let avx := avx_regs && any (ecx basic) 0x10000000 in
  (* 402 *) let fma3 := avx_regs && any (ecx basic) 0x00001000 in
  (* 408 *) let fma4 := avx_regs && any (ecx extended) 0x00010000 in
  (* 414 *) let xop := avx_regs && any (ecx extended) 0x00000800 in
  (* 420 *) let f16c := avx_regs && any (ecx basic) 0x20000000 in
  (* 426 *) let avx2 := avx_regs && any (ebx s0) 0x00000020 in
  (* 432 *) let avx512f := avx512_regs && any (ebx s0) 0x00010000 in
  (* 438 *) let avx10_1 := avx512_regs && any (edx s1) 0x00080000 in
  (* 444 *) let avx10_2 := (2 <=? N.land (ebx s2) 0x000000FF) && avx10_1 in
  (* 450 *) let avx512pf := avx512_regs && any (ebx s0) 0x04000000 in
  (* 456 *) let avx512er := avx512_regs && any (ebx s0) 0x08000000 in
  (* 462 *) let avx512cd := avx512_regs && any (ebx s0) 0x10000000 in
  (* 468 *) let avx512dq := avx512_regs && any (ebx s0) 0x00020000 in
  (* 474 *) let avx512bw := avx512_regs && any (ebx s0) 0x40000000 in
  (* 480 *) let avx512vl := avx512_regs && any (ebx s0) 0x80000000 in
  (* 486 *) let avx512ifma := avx512_regs && any (ebx s0) 0x00200000 in
  (* 492 *) let avx512vbmi := avx512_regs && any (ecx s0) 0x00000002 in
  (* 498 *) let avx512vbmi2 := avx512_regs && any (ecx s0) 0x00000040 in
  (* 504 *) let avx512bitalg := avx512_regs && any (ecx s0) 0x00001000 in
  (* 510 *) let avx512vpopcntdq := avx512_regs && any (ecx s0) 0x00004000 in
  (* 516 *) let avx512vnni := avx512_regs && any (ecx s0) 0x00000800 in
  (* 522 *) let avx512_4vnniw := avx512_regs && any (edx s0) 0x00000004 in
  (* 528 *) let avx512_4fmaps := avx512_regs && any (edx s0) 0x00000008 in
  (* 534 *) let avx512vp2intersect := avx512_regs && any (edx s0) 0x00000100 in
  (* 540 *) let avx512fp16 := avx512_regs && any (edx s0) 0x00800000 in
  (* 546 *) let avxvnni := avx_regs && any (eax s1) 0x00000010 in
  (* 552 *) let avx512bf16 := avx512_regs && any (eax s1) 0x00000020 in
  (* 558 *) let amx_bf16 := avx512_regs && any (edx s0) 0x00400000 in
  (* 564 *) let amx_tile := avx512_regs && any (edx s0) 0x01000000 in
  (* 570 *) let amx_int8 := avx512_regs && any (edx s0) 0x02000000 in
  (* 576 *) let amx_fp16 := avx512_regs && any (eax s1) 0x00200000 in
  (* 582 *) let avx_vnni_int8 := avx_regs && any (edx s1) 0x00000010 in
  (* 588 *) let avx_vnni_int16 := avx_regs && any (edx s1) 0x00000400 in
  (* 594 *) let avx_ne_convert := avx_regs && any (edx s1) 0x00000020 in
  (* 600 *) let hle := any (ebx s0) 0x00000010 in
  (* 606 *) let rtm := any (ebx s0) 0x00000800 in
  (* 612 *) let xtest := hle || rtm in
  (* 618 *) let mpx := mpx_regs && any (ebx s0) 0x00004000 in
  (* 626 *) let cmov := x32 && any (N.lor (edx basic) (edx extended)) 0x00008000 in
  (* 633 *) let cmpxchg8b := x32 && any (N.lor (edx basic) (edx extended)) 0x00000100 in
  (* 640 *) let cmpxchg16b := any (ecx basic) 0x00002000 in
  (* 646 *) let clwb := any (ebx s0) 0x01000000 in
  (* 652 *) let movbe := any (ecx basic) 0x00400000 in
  (* 661 *) let lahf_sahf := negb x32 && any (ecx extended) 0x00000001 in
  (* 668 *) let fs_gs_base := any (ebx s0) 0x00000001 in
  (* 674 *) let lzcnt := any (ecx extended) 0x00000020 in
  (* 680 *) let popcnt := any (ecx basic) 0x00800000 in
  (* 686 *) let tbm := any (ecx extended) 0x00200000 in
  (* 692 *) let bmi := any (ebx s0) 0x00000008 in
  (* 698 *) let bmi2 := any (ebx s0) 0x00000100 in
  (* 704 *) let adx := any (ebx s0) 0x00080000 in
  (* 710 *) let aes := any (ecx basic) 0x02000000 in
  (* 716 *) let vaes := any (ecx s0) 0x00000200 in
  (* 722 *) let pclmulqdq := any (ecx basic) 0x00000002 in
  (* 728 *) let vpclmulqdq := any (ecx s0) 0x00000400 in
  (* 734 *) let gfni := any (ecx s0) 0x00000100 in
  (* 740 *) let rdrand := any (ecx basic) 0x40000000 in
  (* 746 *) let rdseed := any (ebx s0) 0x00040000 in
  (* 752 *) let sha := any (ebx s0) 0x20000000 in
  (* 769 *) let rng := padlock_pair 0x0000000C in
  (* 779 *) let ace := padlock_pair 0x000000C0 in
  (* 789 *) let ace2 := padlock_pair 0x00000300 in
  (* 799 *) let phe := padlock_pair 0x00000C00 in
  (* 809 *) let pmm := padlock_pair 0x00003000 in
  (* 817 *) let lwp := any (ecx extended) 0x00008000 in
  (* 823 *) let rdtscp := any (edx extended) 0x08000000 in
  (* 829 *) let rdpid := any (ecx s0) 0x00400000 in
  fun f => match f with
    | F_rdtsc => rdtsc | F_rdtscp => rdtscp | F_rdpid => rdpid | F_sysenter => sysenter | F_syscall => syscall
    | F_msr => msr | F_clzero => clzero | F_clflush => clflush | F_clflushopt => clflushopt | F_mwait => mwait
    | F_mwaitx => mwaitx | F_emmx => emmx | F_fxsave => fxsave | F_xsave => xsave | F_fpu => fpu | F_mmx => mmx
    | F_mmx_plus => mmx_plus | F_three_d_now => three_d_now | F_three_d_now_plus => three_d_now_plus | F_three_d_now_geode => three_d_now_geode
    | F_prefetch => prefetch | F_prefetchw => prefetchw | F_prefetchwt1 => prefetchwt1 | F_daz => daz
    | F_sse => sse | F_sse2 => sse2 | F_sse3 => sse3 | F_ssse3 => ssse3 | F_sse4_1 => sse4_1 | F_sse4_2 => sse4_2
    | F_sse4a => sse4a | F_misaligned_sse => misaligned_sse | F_avx => avx | F_avxvnni => avxvnni | F_fma3 => fma3
    | F_fma4 => fma4 | F_xop => xop | F_f16c => f16c | F_avx2 => avx2 | F_avx512f => avx512f | F_avx512pf => avx512pf
    | F_avx512er => avx512er | F_avx512cd => avx512cd | F_avx512dq => avx512dq | F_avx512bw => avx512bw
    | F_avx512vl => avx512vl | F_avx512ifma => avx512ifma | F_avx512vbmi => avx512vbmi | F_avx512vbmi2 => avx512vbmi2
    | F_avx512bitalg => avx512bitalg | F_avx512vpopcntdq => avx512vpopcntdq | F_avx512vnni => avx512vnni
    | F_avx512bf16 => avx512bf16 | F_avx512fp16 => avx512fp16 | F_avx512vp2intersect => avx512vp2intersect
    | F_avx512_4vnniw => avx512_4vnniw | F_avx512_4fmaps => avx512_4fmaps | F_avx10_1 => avx10_1 | F_avx10_2 => avx10_2
    | F_amx_bf16 => amx_bf16 | F_amx_tile => amx_tile | F_amx_int8 => amx_int8 | F_amx_fp16 => amx_fp16
    | F_avx_vnni_int8 => avx_vnni_int8 | F_avx_vnni_int16 => avx_vnni_int16 | F_avx_ne_convert => avx_ne_convert
    | F_hle => hle | F_rtm => rtm | F_xtest => xtest | F_mpx => mpx | F_cmov => cmov | F_cmpxchg8b => cmpxchg8b
    | F_cmpxchg16b => cmpxchg16b | F_clwb => clwb | F_movbe => movbe | F_lahf_sahf => lahf_sahf | F_fs_gs_base => fs_gs_base
    | F_lzcnt => lzcnt | F_popcnt => popcnt | F_tbm => tbm | F_bmi => bmi | F_bmi2 => bmi2 | F_adx => adx
    | F_aes => aes | F_vaes => vaes | F_pclmulqdq => pclmulqdq | F_vpclmulqdq => vpclmulqdq | F_gfni => gfni
    | F_rdrand => rdrand | F_rdseed => rdseed | F_sha => sha | F_rng => rng | F_ace => ace | F_ace2 => ace2
    | F_phe => phe | F_pmm => pmm | F_lwp => lwp
  end.

(** The getters, include/cpuinfo.h:874-1660. *)
Inductive getter :=
| Has_rdtsc | Has_rdtscp | Has_rdpid | Has_clzero | Has_mwait | Has_mwaitx | Has_fxsave | Has_xsave
| Has_fpu | Has_mmx | Has_mmx_plus | Has_3dnow | Has_3dnow_plus | Has_3dnow_geode | Has_prefetch
| Has_prefetchw | Has_prefetchwt1 | Has_daz | Has_sse | Has_sse2 | Has_sse3 | Has_ssse3 | Has_sse4_1
| Has_sse4_2 | Has_sse4a | Has_misaligned_sse | Has_avx | Has_avxvnni | Has_fma3 | Has_fma4 | Has_xop
| Has_f16c | Has_avx2 | Has_avx512f | Has_avx512pf | Has_avx512er | Has_avx512cd | Has_avx512dq
| Has_avx512bw | Has_avx512vl | Has_avx512ifma | Has_avx512vbmi | Has_avx512vbmi2 | Has_avx512bitalg
| Has_avx512vpopcntdq | Has_avx512vnni | Has_avx512bf16 | Has_avx512fp16 | Has_avx512vp2intersect
| Has_avx512_4vnniw | Has_avx512_4fmaps | Has_amx_bf16 | Has_amx_tile | Has_amx_int8 | Has_amx_fp16
| Has_avx_vnni_int8 | Has_avx_vnni_int16 | Has_avx_ne_convert | Has_avx10_1 | Has_avx10_2 | Has_hle
| Has_rtm | Has_xtest | Has_mpx | Has_cmov | Has_cmpxchg8b | Has_cmpxchg16b | Has_clwb | Has_movbe
| Has_lahf_sahf | Has_lzcnt | Has_popcnt | Has_tbm | Has_bmi | Has_bmi2 | Has_adx | Has_aes | Has_vaes
| Has_pclmulqdq | Has_vpclmulqdq | Has_gfni | Has_rdrand | Has_rdseed | Has_sha.

(** [isa] is cpuinfo_isa.  The numbers are lines of include/cpuinfo.h. *)
Definition has_x86 (b : build) (isa : feature -> bool) (g : getter) : bool :=
  let x32 := b_x86_32 b in
  let android := b_android b in
  match g with
  | Has_rdtsc => if x32 then (if android then true else isa F_rdtsc) else true (* 874-886 *)
  | Has_rdtscp => isa F_rdtscp (* 888-894 *)
  | Has_rdpid => isa F_rdpid (* 896-902 *)
  | Has_clzero => isa F_clzero (* 904-910 *)
  | Has_mwait => isa F_mwait (* 912-918 *)
  | Has_mwaitx => isa F_mwaitx (* 920-926 *)
  | Has_fxsave => isa F_fxsave (* 928-934 *)
  | Has_xsave => isa F_xsave (* 936-942 *)
  | Has_fpu => if x32 then (if android then true else isa F_fpu) else true (* 944-956 *)
  | Has_mmx => if x32 then (if android then true else isa F_mmx) else true (* 958-970 *)
  | Has_mmx_plus => if x32 then (if android then true else isa F_mmx_plus) else true (* 972-984 *)
  | Has_3dnow => isa F_three_d_now (* 986-992 *)
  | Has_3dnow_plus => isa F_three_d_now_plus (* 994-1000 *)
  | Has_3dnow_geode => if x32 then (if android then false else isa F_three_d_now_geode) else false (* 1002-1014 *)
  | Has_prefetch => isa F_prefetch (* 1016-1022 *)
  | Has_prefetchw => isa F_prefetchw (* 1024-1030 *)
  | Has_prefetchwt1 => isa F_prefetchwt1 (* 1032-1038 *)
  | Has_daz => if x32 then (if android then true else isa F_daz) else true (* 1040-1052 *)
  | Has_sse => if x32 then (if android then true else isa F_sse) else true (* 1054-1066 *)
  | Has_sse2 => if x32 then (if android then true else isa F_sse2) else true (* 1068-1080 *)
  | Has_sse3 => if android then true else isa F_sse3 (* 1082-1092 *)
  | Has_ssse3 => if android then true else isa F_ssse3 (* 1094-1104 *)
  | Has_sse4_1 => if x32 then isa F_sse4_1 else if android then true else isa F_sse4_1 (* 1106-1118 *)
  | Has_sse4_2 => if x32 then isa F_sse4_2 else if android then true else isa F_sse4_2 (* 1120-1132 *)
  | Has_sse4a => isa F_sse4a (* 1134-1140 *)
  | Has_misaligned_sse => isa F_misaligned_sse (* 1142-1148 *)
  | Has_avx => isa F_avx (* 1150-1156 *)
  | Has_avxvnni => isa F_avxvnni (* 1158-1164 *)
  | Has_fma3 => isa F_fma3 (* 1166-1172 *)
  | Has_fma4 => isa F_fma4 (* 1174-1180 *)
  | Has_xop => isa F_xop (* 1182-1188 *)
  | Has_f16c => isa F_f16c (* 1190-1196 *)
  | Has_avx2 => isa F_avx2 (* 1198-1204 *)
  | Has_avx512f => isa F_avx512f (* 1206-1212 *)
  | Has_avx512pf => isa F_avx512pf (* 1214-1220 *)
  | Has_avx512er => isa F_avx512er (* 1222-1228 *)
  | Has_avx512cd => isa F_avx512cd (* 1230-1236 *)
  | Has_avx512dq => isa F_avx512dq (* 1238-1244 *)
  | Has_avx512bw => isa F_avx512bw (* 1246-1252 *)
  | Has_avx512vl => isa F_avx512vl (* 1254-1260 *)
  | Has_avx512ifma => isa F_avx512ifma (* 1262-1268 *)
  | Has_avx512vbmi => isa F_avx512vbmi (* 1270-1276 *)
  | Has_avx512vbmi2 => isa F_avx512vbmi2 (* 1278-1284 *)
  | Has_avx512bitalg => isa F_avx512bitalg (* 1286-1292 *)
  | Has_avx512vpopcntdq => isa F_avx512vpopcntdq (* 1294-1300 *)
  | Has_avx512vnni => isa F_avx512vnni (* 1302-1308 *)
  | Has_avx512bf16 => isa F_avx512bf16 (* 1310-1316 *)
  | Has_avx512fp16 => isa F_avx512fp16 (* 1318-1324 *)
  | Has_avx512vp2intersect => isa F_avx512vp2intersect (* 1326-1332 *)
  | Has_avx512_4vnniw => isa F_avx512_4vnniw (* 1334-1340 *)
  | Has_avx512_4fmaps => isa F_avx512_4fmaps (* 1342-1348 *)
  | Has_amx_bf16 => isa F_amx_bf16 (* 1370-1376 *)
  | Has_amx_tile => isa F_amx_tile (* 1378-1384 *)
  | Has_amx_int8 => isa F_amx_int8 (* 1386-1392 *)
  | Has_amx_fp16 => isa F_amx_fp16 (* 1394-1400 *)
  | Has_avx_vnni_int8 => isa F_avx_vnni_int8 (* 1406-1412 *)
  | Has_avx_vnni_int16 => isa F_avx_vnni_int16 (* 1418-1424 *)
  | Has_avx_ne_convert => isa F_avx_ne_convert (* 1434-1440 *)
  | Has_avx10_1 => isa F_avx10_1 (* 1442-1448 *)
  | Has_avx10_2 => isa F_avx10_2 (* 1450-1456 *)
  | Has_hle => isa F_hle (* 1458-1464 *)
  | Has_rtm => isa F_rtm (* 1466-1472 *)
  | Has_xtest => isa F_xtest (* 1474-1480 *)
  | Has_mpx => isa F_mpx (* 1482-1488 *)
  | Has_cmov => if x32 then isa F_cmov else true (* 1490-1498 *)
  | Has_cmpxchg8b => if x32 then isa F_cmpxchg8b else true (* 1500-1508 *)
  | Has_cmpxchg16b => if x32 then false else isa F_cmpxchg16b (* 1510-1516 *)
  | Has_clwb => isa F_clwb (* 1518-1524 *)
  | Has_movbe => isa F_movbe (* 1526-1532 *)
  | Has_lahf_sahf => if x32 then true else isa F_lahf_sahf (* 1534-1542 *)
  | Has_lzcnt => isa F_lzcnt (* 1544-1550 *)
  | Has_popcnt => if x32 then isa F_popcnt else if android then true else isa F_popcnt (* 1552-1564 *)
  | Has_tbm => isa F_tbm (* 1566-1572 *)
  | Has_bmi => isa F_bmi (* 1574-1580 *)
  | Has_bmi2 => isa F_bmi2 (* 1582-1588 *)
  | Has_adx => isa F_adx (* 1590-1596 *)
  | Has_aes => isa F_aes (* 1598-1604 *)
  | Has_vaes => isa F_vaes (* 1606-1612 *)
  | Has_pclmulqdq => isa F_pclmulqdq (* 1614-1620 *)
  | Has_vpclmulqdq => isa F_vpclmulqdq (* 1622-1628 *)
  | Has_gfni => isa F_gfni (* 1630-1636 *)
  | Has_rdrand => isa F_rdrand (* 1638-1644 *)
  | Has_rdseed => isa F_rdseed (* 1646-1652 *)
  | Has_sha => isa F_sha (* 1654-1660 *)
  end.

(** cpuinfo_isa after src/x86/init.c:14-70: zero before, set if leaf 1 exists. *)
Definition init_isa (b : build) (m : cpu) : feature -> bool :=
  let leaf0 := cpuid m 0 in
  let max_base := eax leaf0 in
  let vendor := decode_vendor b (ebx leaf0) (ecx leaf0) (edx leaf0) in
  let leafE := cpuid m 0x80000000 in
  let max_extended := if 0x80000000 <=? eax leafE then eax leafE else 0 in
  let leafE1 := if 0x80000001 <=? max_extended then cpuid m 0x80000001 else regs0 in
  if 1 <=? max_base then
    let leaf1 := cpuid m 1 in
    detect_isa b m leaf1 leafE1 max_base max_extended vendor (decode_uarch b vendor (decode_model_info (eax leaf1)))
  else fun _ => false.
