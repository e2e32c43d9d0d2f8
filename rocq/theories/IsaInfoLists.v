(** All the getters, for checks over them. *)
From Verif Require Import Base.
From Verif Require X86IsaModel ArmIsaModel RiscvLinuxModel.

Definition every_x86 : list X86IsaModel.getter :=
  [X86IsaModel.Has_rdtsc; X86IsaModel.Has_rdtscp; X86IsaModel.Has_rdpid; X86IsaModel.Has_clzero; X86IsaModel.Has_mwait;
   X86IsaModel.Has_mwaitx; X86IsaModel.Has_fxsave; X86IsaModel.Has_xsave; X86IsaModel.Has_fpu; X86IsaModel.Has_mmx;
   X86IsaModel.Has_mmx_plus; X86IsaModel.Has_3dnow; X86IsaModel.Has_3dnow_plus; X86IsaModel.Has_3dnow_geode;
   X86IsaModel.Has_prefetch; X86IsaModel.Has_prefetchw; X86IsaModel.Has_prefetchwt1; X86IsaModel.Has_daz; X86IsaModel.Has_sse;
   X86IsaModel.Has_sse2; X86IsaModel.Has_sse3; X86IsaModel.Has_ssse3; X86IsaModel.Has_sse4_1; X86IsaModel.Has_sse4_2;
   X86IsaModel.Has_sse4a; X86IsaModel.Has_misaligned_sse; X86IsaModel.Has_avx; X86IsaModel.Has_avxvnni; X86IsaModel.Has_fma3;
   X86IsaModel.Has_fma4; X86IsaModel.Has_xop; X86IsaModel.Has_f16c; X86IsaModel.Has_avx2; X86IsaModel.Has_avx512f;
   X86IsaModel.Has_avx512pf; X86IsaModel.Has_avx512er; X86IsaModel.Has_avx512cd; X86IsaModel.Has_avx512dq;
   X86IsaModel.Has_avx512bw; X86IsaModel.Has_avx512vl; X86IsaModel.Has_avx512ifma; X86IsaModel.Has_avx512vbmi;
   X86IsaModel.Has_avx512vbmi2; X86IsaModel.Has_avx512bitalg; X86IsaModel.Has_avx512vpopcntdq; X86IsaModel.Has_avx512vnni;
   X86IsaModel.Has_avx512bf16; X86IsaModel.Has_avx512fp16; X86IsaModel.Has_avx512vp2intersect; X86IsaModel.Has_avx512_4vnniw;
   X86IsaModel.Has_avx512_4fmaps; X86IsaModel.Has_amx_bf16; X86IsaModel.Has_amx_tile; X86IsaModel.Has_amx_int8;
   X86IsaModel.Has_amx_fp16; X86IsaModel.Has_avx_vnni_int8; X86IsaModel.Has_avx_vnni_int16; X86IsaModel.Has_avx_ne_convert;
   X86IsaModel.Has_avx10_1; X86IsaModel.Has_avx10_2; X86IsaModel.Has_hle; X86IsaModel.Has_rtm; X86IsaModel.Has_xtest;
   X86IsaModel.Has_mpx; X86IsaModel.Has_cmov; X86IsaModel.Has_cmpxchg8b; X86IsaModel.Has_cmpxchg16b; X86IsaModel.Has_clwb;
   X86IsaModel.Has_movbe; X86IsaModel.Has_lahf_sahf; X86IsaModel.Has_lzcnt; X86IsaModel.Has_popcnt; X86IsaModel.Has_tbm;
   X86IsaModel.Has_bmi; X86IsaModel.Has_bmi2; X86IsaModel.Has_adx; X86IsaModel.Has_aes; X86IsaModel.Has_vaes;
   X86IsaModel.Has_pclmulqdq; X86IsaModel.Has_vpclmulqdq; X86IsaModel.Has_gfni; X86IsaModel.Has_rdrand; X86IsaModel.Has_rdseed;
   X86IsaModel.Has_sha].
Definition every_arm : list ArmIsaModel.getter :=
  [ArmIsaModel.Has_thumb; ArmIsaModel.Has_thumb2; ArmIsaModel.Has_v5e; ArmIsaModel.Has_v6; ArmIsaModel.Has_v6k;
   ArmIsaModel.Has_v7; ArmIsaModel.Has_v7mp; ArmIsaModel.Has_v8; ArmIsaModel.Has_idiv; ArmIsaModel.Has_vfpv2;
   ArmIsaModel.Has_vfpv3; ArmIsaModel.Has_vfpv3_d32; ArmIsaModel.Has_vfpv3_fp16; ArmIsaModel.Has_vfpv3_fp16_d32;
   ArmIsaModel.Has_vfpv4; ArmIsaModel.Has_vfpv4_d32; ArmIsaModel.Has_fp16_arith; ArmIsaModel.Has_bf16; ArmIsaModel.Has_wmmx;
   ArmIsaModel.Has_wmmx2; ArmIsaModel.Has_neon; ArmIsaModel.Has_neon_fp16; ArmIsaModel.Has_neon_fma; ArmIsaModel.Has_neon_v8;
   ArmIsaModel.Has_atomics; ArmIsaModel.Has_neon_rdm; ArmIsaModel.Has_neon_fp16_arith; ArmIsaModel.Has_fhm;
   ArmIsaModel.Has_neon_dot; ArmIsaModel.Has_neon_bf16; ArmIsaModel.Has_jscvt; ArmIsaModel.Has_fcma; ArmIsaModel.Has_i8mm;
   ArmIsaModel.Has_aes; ArmIsaModel.Has_sha1; ArmIsaModel.Has_sha2; ArmIsaModel.Has_pmull; ArmIsaModel.Has_crc32;
   ArmIsaModel.Has_sve; ArmIsaModel.Has_sve_bf16; ArmIsaModel.Has_sve2; ArmIsaModel.Has_sme; ArmIsaModel.Has_sme2;
   ArmIsaModel.Has_sme2p1; ArmIsaModel.Has_sme_i16i32; ArmIsaModel.Has_sme_bi32i32; ArmIsaModel.Has_sme_b16b16;
   ArmIsaModel.Has_sme_f16f16].
Definition every_riscv : list RiscvLinuxModel.riscv_getter :=
  [RiscvLinuxModel.Has_i; RiscvLinuxModel.Has_e; RiscvLinuxModel.Has_m; RiscvLinuxModel.Has_a; RiscvLinuxModel.Has_f;
   RiscvLinuxModel.Has_d; RiscvLinuxModel.Has_g; RiscvLinuxModel.Has_c; RiscvLinuxModel.Has_v].
Lemma every_x86_all g : In g every_x86.
Proof. destruct g; unfold every_x86; cbn [In]; repeat (try (left; reflexivity); right). Qed.
Lemma every_arm_all g : In g every_arm.
Proof. destruct g; unfold every_arm; cbn [In]; repeat (try (left; reflexivity); right). Qed.
Lemma every_riscv_all g : In g every_riscv.
Proof. destruct g; cbn; tauto. Qed.
