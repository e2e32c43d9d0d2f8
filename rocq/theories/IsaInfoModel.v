(** tools/isa-info.c: what the tool prints.  Definitions only. *)
From Verif Require Import Base Text ToolsModel.
From Verif Require X86DescriptorModel X86IsaModel ArmIsaModel RiscvLinuxModel.
Import X86DescriptorModel(build, b_x86_32).
Import X86IsaModel ArmIsaModel RiscvLinuxModel.
Open Scope N_scope.

(** A line prints a label and "yes" or "no", as a getter says, or the length of vectors. *)
Inductive item (getter : Type) := Flag (g : getter) | Length.
Arguments Flag {getter} g.
Arguments Length {getter}.
Definition contents (getter : Type) : Type := list (list N * list (list N * item getter)).

(** printf of %d, of a 32-bit number. *)
Definition signed (n : N) : list N := if n <? 0x80000000 then number n else text "-" ++ number (two32 - n).
Definition print_item {G} (has : G -> bool) (length : N) (i : list N * item G) : list N :=
  [tab] ++ fst i ++ text ": " ++
  match snd i with Flag g => if has g then text "yes" else text "no" | Length => signed length end ++ [newline].
Definition print_contents {G} (has : G -> bool) (length : N) (c : contents G) : list N :=
  flat_map (fun s => fst s ++ [newline] ++ flat_map (print_item has length) (snd s)) c.

(** tools/isa-info.c:14-116, on x86. *)
Definition x86_contents (b : build) : contents X86IsaModel.getter :=
  [
   (text "Scalar instructions:",
     (if b_x86_32 b then [(text "x87 FPU", Flag X86IsaModel.Has_fpu); (text "CMOV", Flag X86IsaModel.Has_cmov)] else []) ++
     [(text "LAHF/SAHF", Flag X86IsaModel.Has_lahf_sahf); (text "LZCNT", Flag X86IsaModel.Has_lzcnt);
      (text "POPCNT", Flag X86IsaModel.Has_popcnt); (text "TBM", Flag X86IsaModel.Has_tbm);
      (text "BMI", Flag X86IsaModel.Has_bmi); (text "BMI2", Flag X86IsaModel.Has_bmi2);
      (text "ADCX/ADOX", Flag X86IsaModel.Has_adx)]);
   (text "Memory instructions:", [
     (text "MOVBE", Flag X86IsaModel.Has_movbe); (text "PREFETCH", Flag X86IsaModel.Has_prefetch);
     (text "PREFETCHW", Flag X86IsaModel.Has_prefetchw); (text "PREFETCHWT1", Flag X86IsaModel.Has_prefetchwt1);
     (text "CLZERO", Flag X86IsaModel.Has_clzero)]);
   (text "SIMD extensions:", [
     (text "MMX", Flag X86IsaModel.Has_mmx); (text "MMX+", Flag X86IsaModel.Has_mmx_plus);
     (text "3dnow!", Flag X86IsaModel.Has_3dnow); (text "3dnow!+", Flag X86IsaModel.Has_3dnow_plus);
     (text "3dnow! Geode", Flag X86IsaModel.Has_3dnow_geode); (text "DAZ", Flag X86IsaModel.Has_daz);
     (text "SSE", Flag X86IsaModel.Has_sse); (text "SSE2", Flag X86IsaModel.Has_sse2);
     (text "SSE3", Flag X86IsaModel.Has_sse3); (text "SSSE3", Flag X86IsaModel.Has_ssse3);
     (text "SSE4.1", Flag X86IsaModel.Has_sse4_1); (text "SSE4.2", Flag X86IsaModel.Has_sse4_2);
     (text "SSE4a", Flag X86IsaModel.Has_sse4a); (text "Misaligned SSE", Flag X86IsaModel.Has_misaligned_sse);
     (text "AVX", Flag X86IsaModel.Has_avx); (text "FMA3", Flag X86IsaModel.Has_fma3);
     (text "FMA4", Flag X86IsaModel.Has_fma4); (text "XOP", Flag X86IsaModel.Has_xop);
     (text "F16C", Flag X86IsaModel.Has_f16c); (text "AVX2", Flag X86IsaModel.Has_avx2);
     (text "AVX512F", Flag X86IsaModel.Has_avx512f); (text "AVX512PF", Flag X86IsaModel.Has_avx512pf);
     (text "AVX512ER", Flag X86IsaModel.Has_avx512er); (text "AVX512CD", Flag X86IsaModel.Has_avx512cd);
     (text "AVX512DQ", Flag X86IsaModel.Has_avx512dq); (text "AVX512BW", Flag X86IsaModel.Has_avx512bw);
     (text "AVX512VL", Flag X86IsaModel.Has_avx512vl); (text "AVX512IFMA", Flag X86IsaModel.Has_avx512ifma);
     (text "AVX512VBMI", Flag X86IsaModel.Has_avx512vbmi); (text "AVX512VBMI2", Flag X86IsaModel.Has_avx512vbmi2);
     (text "AVX512BITALG", Flag X86IsaModel.Has_avx512bitalg); (text "AVX512VPOPCNTDQ", Flag X86IsaModel.Has_avx512vpopcntdq);
     (text "AVX512VNNI", Flag X86IsaModel.Has_avx512vnni); (text "AVX512BF16", Flag X86IsaModel.Has_avx512bf16);
     (text "AVX512FP16", Flag X86IsaModel.Has_avx512fp16);
     (text "AVX512VP2INTERSECT", Flag X86IsaModel.Has_avx512vp2intersect);
     (text "AVX512_4VNNIW", Flag X86IsaModel.Has_avx512_4vnniw); (text "AVX512_4FMAPS", Flag X86IsaModel.Has_avx512_4fmaps);
     (text "AVX10_1", Flag X86IsaModel.Has_avx10_1); (text "AVX10_2", Flag X86IsaModel.Has_avx10_2);
     (text "AMX_BF16", Flag X86IsaModel.Has_amx_bf16); (text "AMX_TILE", Flag X86IsaModel.Has_amx_tile);
     (text "AMX_INT8", Flag X86IsaModel.Has_amx_int8); (text "AMX_FP16", Flag X86IsaModel.Has_amx_fp16);
     (text "AVXVNNI", Flag X86IsaModel.Has_avxvnni); (text "AVX_VNNI_INT8", Flag X86IsaModel.Has_avx_vnni_int8);
     (text "AVX_VNNI_INT16", Flag X86IsaModel.Has_avx_vnni_int16); (text "AVX_NE_CONVERT", Flag X86IsaModel.Has_avx_ne_convert)]);
   (text "Multi-threading extensions:",
     [(text "MONITOR/MWAIT", Flag X86IsaModel.Has_mwait); (text "MONITORX/MWAITX", Flag X86IsaModel.Has_mwaitx)] ++
     (if b_x86_32 b then [(text "CMPXCHG8B", Flag X86IsaModel.Has_cmpxchg8b)] else []) ++
     [(text "CMPXCHG16B", Flag X86IsaModel.Has_cmpxchg16b); (text "HLE", Flag X86IsaModel.Has_hle);
      (text "RTM", Flag X86IsaModel.Has_rtm); (text "XTEST", Flag X86IsaModel.Has_xtest);
      (text "RDPID", Flag X86IsaModel.Has_rdpid)]);
   (text "Cryptography extensions:", [
     (text "AES", Flag X86IsaModel.Has_aes); (text "VAES", Flag X86IsaModel.Has_vaes);
     (text "PCLMULQDQ", Flag X86IsaModel.Has_pclmulqdq); (text "VPCLMULQDQ", Flag X86IsaModel.Has_vpclmulqdq);
     (text "GFNI", Flag X86IsaModel.Has_gfni); (text "RDRAND", Flag X86IsaModel.Has_rdrand);
     (text "RDSEED", Flag X86IsaModel.Has_rdseed); (text "SHA", Flag X86IsaModel.Has_sha)]);
   (text "Profiling instructions:",
     (if b_x86_32 b then [(text "RDTSC", Flag X86IsaModel.Has_rdtsc)] else []) ++
     [(text "RDTSCP", Flag X86IsaModel.Has_rdtscp); (text "MPX", Flag X86IsaModel.Has_mpx)]);
   (text "System instructions:", [
     (text "CLWB", Flag X86IsaModel.Has_clwb); (text "FXSAVE/FXSTOR", Flag X86IsaModel.Has_fxsave);
     (text "XSAVE/XSTOR", Flag X86IsaModel.Has_xsave)])].

(** tools/isa-info.c:121-159, on 32-bit ARM. *)
Definition arm32_contents : contents ArmIsaModel.getter :=
  [
   (text "Instruction sets:", [
     (text "Thumb", Flag ArmIsaModel.Has_thumb); (text "Thumb 2", Flag ArmIsaModel.Has_thumb2);
     (text "ARMv5E", Flag ArmIsaModel.Has_v5e); (text "ARMv6", Flag ArmIsaModel.Has_v6);
     (text "ARMv6-K", Flag ArmIsaModel.Has_v6k); (text "ARMv7", Flag ArmIsaModel.Has_v7);
     (text "ARMv7 MP", Flag ArmIsaModel.Has_v7mp); (text "ARMv8", Flag ArmIsaModel.Has_v8);
     (text "IDIV", Flag ArmIsaModel.Has_idiv)]);
   (text "Floating-Point support:", [
     (text "VFPv2", Flag ArmIsaModel.Has_vfpv2); (text "VFPv3", Flag ArmIsaModel.Has_vfpv3);
     (text "VFPv3+D32", Flag ArmIsaModel.Has_vfpv3_d32); (text "VFPv3+FP16", Flag ArmIsaModel.Has_vfpv3_fp16);
     (text "VFPv3+FP16+D32", Flag ArmIsaModel.Has_vfpv3_fp16_d32); (text "VFPv4", Flag ArmIsaModel.Has_vfpv4);
     (text "VFPv4+D32", Flag ArmIsaModel.Has_vfpv4_d32); (text "VJCVT", Flag ArmIsaModel.Has_jscvt)]);
   (text "SIMD extensions:", [
     (text "WMMX", Flag ArmIsaModel.Has_wmmx); (text "WMMX 2", Flag ArmIsaModel.Has_wmmx2);
     (text "NEON", Flag ArmIsaModel.Has_neon); (text "NEON-FP16", Flag ArmIsaModel.Has_neon_fp16);
     (text "NEON-FMA", Flag ArmIsaModel.Has_neon_fma); (text "NEON VQRDMLAH/VQRDMLSH", Flag ArmIsaModel.Has_neon_rdm);
     (text "NEON FP16 arithmetics", Flag ArmIsaModel.Has_neon_fp16_arith); (text "NEON complex", Flag ArmIsaModel.Has_fcma);
     (text "NEON VSDOT/VUDOT", Flag ArmIsaModel.Has_neon_dot); (text "NEON VFMLAL/VFMLSL", Flag ArmIsaModel.Has_fhm)]);
   (text "Cryptography extensions:", [
     (text "AES", Flag ArmIsaModel.Has_aes); (text "SHA1", Flag ArmIsaModel.Has_sha1);
     (text "SHA2", Flag ArmIsaModel.Has_sha2); (text "PMULL", Flag ArmIsaModel.Has_pmull);
     (text "CRC32", Flag ArmIsaModel.Has_crc32)])].

(** tools/isa-info.c:162-187, on 64-bit ARM. *)
Definition arm64_contents : contents ArmIsaModel.getter :=
  [
   (text "Instruction sets:", [
     (text "ARM v8.1 atomics", Flag ArmIsaModel.Has_atomics); (text "ARM v8.1 SQRDMLxH", Flag ArmIsaModel.Has_neon_rdm);
     (text "ARM v8.2 FP16 arithmetics", Flag ArmIsaModel.Has_fp16_arith); (text "ARM v8.2 FHM", Flag ArmIsaModel.Has_fhm);
     (text "ARM v8.2 BF16", Flag ArmIsaModel.Has_bf16); (text "ARM v8.2 Int8 dot product", Flag ArmIsaModel.Has_neon_dot);
     (text "ARM v8.2 Int8 matrix multiplication", Flag ArmIsaModel.Has_i8mm);
     (text "ARM v8.3 JS conversion", Flag ArmIsaModel.Has_jscvt); (text "ARM v8.3 complex", Flag ArmIsaModel.Has_fcma)]);
   (text "SIMD extensions:", [
     (text "ARM SVE", Flag ArmIsaModel.Has_sve); (text "ARM SVE 2", Flag ArmIsaModel.Has_sve2);
     (text "ARM SME", Flag ArmIsaModel.Has_sme); (text "ARM SME 2", Flag ArmIsaModel.Has_sme2)]);
   (text "ARM SVE Capabilities:", [
     (text "SVE max length", Length)]);
   (text "Cryptography extensions:", [
     (text "AES", Flag ArmIsaModel.Has_aes); (text "SHA1", Flag ArmIsaModel.Has_sha1);
     (text "SHA2", Flag ArmIsaModel.Has_sha2); (text "PMULL", Flag ArmIsaModel.Has_pmull);
     (text "CRC32", Flag ArmIsaModel.Has_crc32)])].

(** tools/isa-info.c:190-197, on RISC-V. *)
Definition riscv_contents : contents riscv_getter :=
  [
   (text "Instruction sets:", [
     (text "Base Integer", Flag RiscvLinuxModel.Has_i); (text "Integer Multiply/Divide", Flag RiscvLinuxModel.Has_m);
     (text "Atomics", Flag RiscvLinuxModel.Has_a); (text "Single-Precision Floating-Point", Flag RiscvLinuxModel.Has_f);
     (text "Double-Precision Floating-Point", Flag RiscvLinuxModel.Has_d); (text "Compressed", Flag RiscvLinuxModel.Has_c);
     (text "Vector", Flag RiscvLinuxModel.Has_v)])].

(** main, once initialisation has succeeded, for the instruction sets that were detected. *)
Definition isa_info_x86 (b : build) (isa : X86IsaModel.feature -> bool) : list N := print_contents (has_x86 b isa) 0 (x86_contents b).
Definition isa_info_arm (arm32 : bool) (isa : ArmIsaModel.isa) (svelen : N) : list N :=
  print_contents (has_arm arm32 isa) (max_arm_sve_length arm32 svelen) (if arm32 then arm32_contents else arm64_contents).
Definition isa_info_riscv (rv32 : bool) (isa : riscv_isa) : list N := print_contents (has_riscv rv32 isa) 0 riscv_contents.
