(** A reader of what isa-info prints, and what its labels mean. *)
From Verif Require Import Base Text ReportSpec.
From Verif Require X86IsaModel ArmIsaModel RiscvLinuxModel CpuInfoSpec.
Import CpuInfoSpec(plain_character, same).
Open Scope N_scope.

(** ** Reading *)
Inductive answer := Yes | No | Size (n : N).
Definition yes_or_no (b : bool) : answer := if b then Yes else No.
Definition read_answer (s : list N) : option answer :=
  if same s (text "yes") then Some Yes
  else if same s (text "no") then Some No
  else match a_number s with Some (n, []) => Some (Size n) | _ => None end.
(** What stands in front of the first colon, and behind it. *)
Fixpoint until_colon (s : list N) : option (list N * list N) :=
  match s with
  | [] => None
  | c :: s' => if c =? 58 then Some ([], s') else match until_colon s' with Some (l, r) => Some (c :: l, r) | None => None end
  end.
Definition read_line (s : list N) : option (list N * answer) :=
  match until_colon s with
  | Some (label, 32 :: r) => match read_answer r with Some a => Some (label, a) | None => None end
  | _ => None
  end.
Fixpoint read_lines (ls : list (list N)) : option (list (list N * answer)) :=
  match ls with
  | [] => Some []
  | l :: ls' => match read_line l, read_lines ls' with Some x, Some xs => Some (x :: xs) | _, _ => None end
  end.
(** The labels and answers of a report, in all of its sections. *)
Definition read_isa_info (s : list N) : option (list (list N * answer)) :=
  match sections s with Some ss => read_lines (flat_map snd ss) | None => None end.

(** ** Labels.  A getter is called by its identifier in include/cpuinfo.h, behind
    cpuinfo_has_x86_, cpuinfo_has_arm_ or cpuinfo_has_riscv_, or by the names below it, which
    say what the comments of that file and the manuals say.  Only letters, digits and the
    plus sign count. *)
Definition spoken (s : list N) : list N := flat_map (fun c => if c =? 43 then text "plus" else plain_character c) s.
Definition called (names : list (list N)) (label : list N) : Prop := exists n, In n names /\ spoken n = spoken label.

Definition x86_names (g : X86IsaModel.getter) : list (list N) :=
  match g with
  | X86IsaModel.Has_rdtsc => [text "rdtsc"] | X86IsaModel.Has_rdtscp => [text "rdtscp"]
  | X86IsaModel.Has_rdpid => [text "rdpid"] | X86IsaModel.Has_clzero => [text "clzero"]
  | X86IsaModel.Has_mwait => [text "mwait"; text "MONITOR/MWAIT"]
  | X86IsaModel.Has_mwaitx => [text "mwaitx"; text "MONITORX/MWAITX"]
  | X86IsaModel.Has_fxsave => [text "fxsave"; text "FXSAVE/FXSTOR"]
  | X86IsaModel.Has_xsave => [text "xsave"; text "XSAVE/XSTOR"] | X86IsaModel.Has_fpu => [text "fpu"; text "x87 FPU"]
  | X86IsaModel.Has_mmx => [text "mmx"] | X86IsaModel.Has_mmx_plus => [text "mmx_plus"]
  | X86IsaModel.Has_3dnow => [text "3dnow"] | X86IsaModel.Has_3dnow_plus => [text "3dnow_plus"]
  | X86IsaModel.Has_3dnow_geode => [text "3dnow_geode"] | X86IsaModel.Has_prefetch => [text "prefetch"]
  | X86IsaModel.Has_prefetchw => [text "prefetchw"] | X86IsaModel.Has_prefetchwt1 => [text "prefetchwt1"]
  | X86IsaModel.Has_daz => [text "daz"] | X86IsaModel.Has_sse => [text "sse"] | X86IsaModel.Has_sse2 => [text "sse2"]
  | X86IsaModel.Has_sse3 => [text "sse3"] | X86IsaModel.Has_ssse3 => [text "ssse3"] | X86IsaModel.Has_sse4_1 => [text "sse4_1"]
  | X86IsaModel.Has_sse4_2 => [text "sse4_2"] | X86IsaModel.Has_sse4a => [text "sse4a"]
  | X86IsaModel.Has_misaligned_sse => [text "misaligned_sse"] | X86IsaModel.Has_avx => [text "avx"]
  | X86IsaModel.Has_avxvnni => [text "avxvnni"] | X86IsaModel.Has_fma3 => [text "fma3"] | X86IsaModel.Has_fma4 => [text "fma4"]
  | X86IsaModel.Has_xop => [text "xop"] | X86IsaModel.Has_f16c => [text "f16c"] | X86IsaModel.Has_avx2 => [text "avx2"]
  | X86IsaModel.Has_avx512f => [text "avx512f"] | X86IsaModel.Has_avx512pf => [text "avx512pf"]
  | X86IsaModel.Has_avx512er => [text "avx512er"] | X86IsaModel.Has_avx512cd => [text "avx512cd"]
  | X86IsaModel.Has_avx512dq => [text "avx512dq"] | X86IsaModel.Has_avx512bw => [text "avx512bw"]
  | X86IsaModel.Has_avx512vl => [text "avx512vl"] | X86IsaModel.Has_avx512ifma => [text "avx512ifma"]
  | X86IsaModel.Has_avx512vbmi => [text "avx512vbmi"] | X86IsaModel.Has_avx512vbmi2 => [text "avx512vbmi2"]
  | X86IsaModel.Has_avx512bitalg => [text "avx512bitalg"] | X86IsaModel.Has_avx512vpopcntdq => [text "avx512vpopcntdq"]
  | X86IsaModel.Has_avx512vnni => [text "avx512vnni"] | X86IsaModel.Has_avx512bf16 => [text "avx512bf16"]
  | X86IsaModel.Has_avx512fp16 => [text "avx512fp16"] | X86IsaModel.Has_avx512vp2intersect => [text "avx512vp2intersect"]
  | X86IsaModel.Has_avx512_4vnniw => [text "avx512_4vnniw"] | X86IsaModel.Has_avx512_4fmaps => [text "avx512_4fmaps"]
  | X86IsaModel.Has_amx_bf16 => [text "amx_bf16"] | X86IsaModel.Has_amx_tile => [text "amx_tile"]
  | X86IsaModel.Has_amx_int8 => [text "amx_int8"] | X86IsaModel.Has_amx_fp16 => [text "amx_fp16"]
  | X86IsaModel.Has_avx_vnni_int8 => [text "avx_vnni_int8"] | X86IsaModel.Has_avx_vnni_int16 => [text "avx_vnni_int16"]
  | X86IsaModel.Has_avx_ne_convert => [text "avx_ne_convert"] | X86IsaModel.Has_avx10_1 => [text "avx10_1"]
  | X86IsaModel.Has_avx10_2 => [text "avx10_2"] | X86IsaModel.Has_hle => [text "hle"] | X86IsaModel.Has_rtm => [text "rtm"]
  | X86IsaModel.Has_xtest => [text "xtest"] | X86IsaModel.Has_mpx => [text "mpx"] | X86IsaModel.Has_cmov => [text "cmov"]
  | X86IsaModel.Has_cmpxchg8b => [text "cmpxchg8b"] | X86IsaModel.Has_cmpxchg16b => [text "cmpxchg16b"]
  | X86IsaModel.Has_clwb => [text "clwb"] | X86IsaModel.Has_movbe => [text "movbe"]
  | X86IsaModel.Has_lahf_sahf => [text "lahf_sahf"] | X86IsaModel.Has_lzcnt => [text "lzcnt"]
  | X86IsaModel.Has_popcnt => [text "popcnt"] | X86IsaModel.Has_tbm => [text "tbm"] | X86IsaModel.Has_bmi => [text "bmi"]
  | X86IsaModel.Has_bmi2 => [text "bmi2"] | X86IsaModel.Has_adx => [text "adx"; text "ADCX/ADOX"]
  | X86IsaModel.Has_aes => [text "aes"] | X86IsaModel.Has_vaes => [text "vaes"]
  | X86IsaModel.Has_pclmulqdq => [text "pclmulqdq"] | X86IsaModel.Has_vpclmulqdq => [text "vpclmulqdq"]
  | X86IsaModel.Has_gfni => [text "gfni"] | X86IsaModel.Has_rdrand => [text "rdrand"]
  | X86IsaModel.Has_rdseed => [text "rdseed"] | X86IsaModel.Has_sha => [text "sha"]
  end.
Definition arm_names (g : ArmIsaModel.getter) : list (list N) :=
  match g with
  | ArmIsaModel.Has_thumb => [text "thumb"] | ArmIsaModel.Has_thumb2 => [text "thumb2"]
  | ArmIsaModel.Has_v5e => [text "v5e"; text "ARMv5E"] | ArmIsaModel.Has_v6 => [text "v6"; text "ARMv6"]
  | ArmIsaModel.Has_v6k => [text "v6k"; text "ARMv6-K"] | ArmIsaModel.Has_v7 => [text "v7"; text "ARMv7"]
  | ArmIsaModel.Has_v7mp => [text "v7mp"; text "ARMv7 MP"] | ArmIsaModel.Has_v8 => [text "v8"; text "ARMv8"]
  | ArmIsaModel.Has_idiv => [text "idiv"] | ArmIsaModel.Has_vfpv2 => [text "vfpv2"] | ArmIsaModel.Has_vfpv3 => [text "vfpv3"]
  | ArmIsaModel.Has_vfpv3_d32 => [text "vfpv3_d32"; text "VFPv3+D32"]
  | ArmIsaModel.Has_vfpv3_fp16 => [text "vfpv3_fp16"; text "VFPv3+FP16"]
  | ArmIsaModel.Has_vfpv3_fp16_d32 => [text "vfpv3_fp16_d32"; text "VFPv3+FP16+D32"] | ArmIsaModel.Has_vfpv4 => [text "vfpv4"]
  | ArmIsaModel.Has_vfpv4_d32 => [text "vfpv4_d32"; text "VFPv4+D32"]
  | ArmIsaModel.Has_fp16_arith => [text "fp16_arith"; text "ARM v8.2 FP16 arithmetics"]
  | ArmIsaModel.Has_bf16 => [text "bf16"; text "ARM v8.2 BF16"] | ArmIsaModel.Has_wmmx => [text "wmmx"]
  | ArmIsaModel.Has_wmmx2 => [text "wmmx2"] | ArmIsaModel.Has_neon => [text "neon"]
  | ArmIsaModel.Has_neon_fp16 => [text "neon_fp16"] | ArmIsaModel.Has_neon_fma => [text "neon_fma"]
  | ArmIsaModel.Has_neon_v8 => [text "neon_v8"] | ArmIsaModel.Has_atomics => [text "atomics"; text "ARM v8.1 atomics"]
  | ArmIsaModel.Has_neon_rdm => [text "neon_rdm"; text "NEON VQRDMLAH/VQRDMLSH"; text "ARM v8.1 SQRDMLxH"]
  | ArmIsaModel.Has_neon_fp16_arith => [text "neon_fp16_arith"; text "NEON FP16 arithmetics"]
  | ArmIsaModel.Has_fhm => [text "fhm"; text "NEON VFMLAL/VFMLSL"; text "ARM v8.2 FHM"]
  | ArmIsaModel.Has_neon_dot => [text "neon_dot"; text "NEON VSDOT/VUDOT"; text "ARM v8.2 Int8 dot product"]
  | ArmIsaModel.Has_neon_bf16 => [text "neon_bf16"]
  | ArmIsaModel.Has_jscvt => [text "jscvt"; text "VJCVT"; text "ARM v8.3 JS conversion"]
  | ArmIsaModel.Has_fcma => [text "fcma"; text "NEON complex"; text "ARM v8.3 complex"]
  | ArmIsaModel.Has_i8mm => [text "i8mm"; text "ARM v8.2 Int8 matrix multiplication"] | ArmIsaModel.Has_aes => [text "aes"]
  | ArmIsaModel.Has_sha1 => [text "sha1"] | ArmIsaModel.Has_sha2 => [text "sha2"] | ArmIsaModel.Has_pmull => [text "pmull"]
  | ArmIsaModel.Has_crc32 => [text "crc32"] | ArmIsaModel.Has_sve => [text "sve"; text "ARM SVE"]
  | ArmIsaModel.Has_sve_bf16 => [text "sve_bf16"] | ArmIsaModel.Has_sve2 => [text "sve2"; text "ARM SVE 2"]
  | ArmIsaModel.Has_sme => [text "sme"; text "ARM SME"] | ArmIsaModel.Has_sme2 => [text "sme2"; text "ARM SME 2"]
  | ArmIsaModel.Has_sme2p1 => [text "sme2p1"] | ArmIsaModel.Has_sme_i16i32 => [text "sme_i16i32"]
  | ArmIsaModel.Has_sme_bi32i32 => [text "sme_bi32i32"] | ArmIsaModel.Has_sme_b16b16 => [text "sme_b16b16"]
  | ArmIsaModel.Has_sme_f16f16 => [text "sme_f16f16"]
  end.
Definition riscv_names (g : RiscvLinuxModel.riscv_getter) : list (list N) :=
  match g with
  | RiscvLinuxModel.Has_i => [text "i"; text "Base Integer"] | RiscvLinuxModel.Has_e => [text "e"]
  | RiscvLinuxModel.Has_m => [text "m"; text "Integer Multiply/Divide"] | RiscvLinuxModel.Has_a => [text "a"; text "Atomics"]
  | RiscvLinuxModel.Has_f => [text "f"; text "Single-Precision Floating-Point"]
  | RiscvLinuxModel.Has_d => [text "d"; text "Double-Precision Floating-Point"] | RiscvLinuxModel.Has_g => [text "g"]
  | RiscvLinuxModel.Has_c => [text "c"; text "Compressed"] | RiscvLinuxModel.Has_v => [text "v"; text "Vector"]
  end.

(** ** What the report says: [Tells names has said] - every line that answers with yes or no
    has its own label, which calls a getter, and the answer is what the getter returns;
    [Length]s are given by [sizes]. *)
Record Tells {G} (names : G -> list (list N)) (has : G -> bool) (sizes : list (list N * N)) (said : list (list N * answer)) : Prop := {
  tells_labels : NoDup (map fst said);
  tells_lines : forall label a, In (label, a) said ->
    (exists g, called (names g) label /\ a = yes_or_no (has g)) \/ (exists n, In (label, n) sizes /\ a = Size n);
  tells_sizes : forall label n, In (label, n) sizes -> In (label, Size n) said
}.
(** A getter that has a line. *)
Definition told {G} (names : G -> list (list N)) (has : G -> bool) (said : list (list N * answer)) (g : G) : Prop :=
  exists label, called (names g) label /\ In (label, yes_or_no (has g)) said.

(** The sizes told: on 64-bit ARM the longest vectors of SVE, in bits. *)
Definition arm_sizes (arm32 : bool) (svelen : N) : list (list N * N) := if arm32 then [] else [(text "SVE max length", 8 * svelen)].
(** The extensions of SME, which 64-bit ARM detects. *)
Definition sme_extensions : list ArmIsaModel.getter :=
  [ArmIsaModel.Has_sme2p1; ArmIsaModel.Has_sme_i16i32; ArmIsaModel.Has_sme_bi32i32; ArmIsaModel.Has_sme_b16b16;
   ArmIsaModel.Has_sme_f16f16].
(** The letters by which RISC-V calls what the report tells, as ASCII. *)
Definition riscv_letters : list (RiscvLinuxModel.riscv_getter * N) :=
  [(RiscvLinuxModel.Has_i, 73); (RiscvLinuxModel.Has_m, 77); (RiscvLinuxModel.Has_a, 65); (RiscvLinuxModel.Has_f, 70);
   (RiscvLinuxModel.Has_d, 68); (RiscvLinuxModel.Has_c, 67); (RiscvLinuxModel.Has_v, 86)].
