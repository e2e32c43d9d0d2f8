(** Which extensions build on which, from the vendors' manuals; independent of the detection code. *)
From Verif Require Import Base X86DescriptorModel X86DecodeModel X86IsaModel X86IsaSpec.
Open Scope N_scope.

(** The second extension is part of what the first one takes for granted. *)
Definition x86_builds_on : list (getter * getter) :=
  [(Has_sse2, Has_sse); (Has_sse3, Has_sse2); (Has_ssse3, Has_sse3); (Has_sse4_1, Has_ssse3); (Has_sse4_2, Has_sse4_1); (Has_sse4a, Has_sse3);
   (Has_aes, Has_sse2); (Has_pclmulqdq, Has_sse2); (Has_sha, Has_ssse3); (Has_gfni, Has_sse2); (Has_vaes, Has_aes); (Has_vpclmulqdq, Has_pclmulqdq);
   (Has_avx, Has_sse4_2); (Has_avx, Has_xsave); (Has_avx2, Has_avx); (Has_fma3, Has_avx); (Has_fma4, Has_avx); (Has_xop, Has_avx); (Has_f16c, Has_avx);
   (Has_avxvnni, Has_avx2); (Has_avx_vnni_int8, Has_avx2); (Has_avx_vnni_int16, Has_avx2); (Has_avx_ne_convert, Has_avx2);
   (Has_avx512f, Has_avx2); (Has_avx512f, Has_fma3); (Has_avx512f, Has_f16c)] ++
  map (fun g => (g, Has_avx512f))
    [Has_avx512pf; Has_avx512er; Has_avx512cd; Has_avx512dq; Has_avx512bw; Has_avx512vl; Has_avx512ifma; Has_avx512vpopcntdq; Has_avx512vnni;
     Has_avx512vp2intersect; Has_avx512_4vnniw; Has_avx512_4fmaps] ++
  map (fun g => (g, Has_avx512bw)) [Has_avx512vbmi; Has_avx512vbmi2; Has_avx512bitalg; Has_avx512bf16; Has_avx512fp16] ++
  map (fun g => (Has_avx10_1, g))
    [Has_avx512cd; Has_avx512dq; Has_avx512vl; Has_avx512ifma; Has_avx512vbmi; Has_avx512vbmi2; Has_avx512bitalg; Has_avx512vpopcntdq; Has_avx512vnni;
     Has_avx512bf16; Has_avx512fp16; Has_vaes; Has_vpclmulqdq] ++
  [(Has_avx10_2, Has_avx10_1); (Has_amx_int8, Has_amx_tile); (Has_amx_bf16, Has_amx_tile); (Has_amx_fp16, Has_amx_tile);
   (Has_mpx, Has_xsave); (Has_3dnow, Has_mmx); (Has_3dnow_plus, Has_3dnow); (Has_3dnow_geode, Has_3dnow_plus); (Has_mmx_plus, Has_mmx);
   (Has_hle, Has_xtest); (Has_rtm, Has_xtest)].

(** Step by step, all that an extension takes for granted. *)
Inductive needs : getter -> getter -> Prop :=
| needs_self g : needs g g
| needs_step a c d : In (a, c) x86_builds_on -> needs c d -> needs a d.

(** CPUID announces an extension. *)
Definition announced (b : build) (m : cpu) (g : getter) : Prop :=
  exists places state, documented_on b m g = Some (Entry places state) /\ exists p, In p places /\ announces m p.

(** A processor that announces nothing without what it builds on.  (Whether the operating system has enabled it is another matter.) *)
Definition announces_completely (b : build) (m : cpu) : Prop :=
  forall a c, In (a, c) x86_builds_on -> announced b m a -> announced b m c.
