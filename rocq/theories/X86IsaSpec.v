(** What the vendors document about instruction-set detection: for each
    cpuinfo_has_x86_* getter the CPUID bits that announce the instructions and the
    register state that the operating system must have enabled in XCR0.
    Independent of the detection code; written from the processor manuals. *)
From Verif Require Import Base X86DescriptorModel X86DecodeModel X86IsaModel.
Open Scope N_scope.

(** What a leaf says; a leaf beyond the highest one of its range says nothing. *)
Definition leaf_exists (m : cpu) (l : N) : Prop :=
  if l <? 0x80000000 then l <= eax (cpuid m 0) else l <= eax (cpuid m 0x80000000).
Definition leaf_existsb (m : cpu) (l : N) : bool :=
  if l <? 0x80000000 then l <=? eax (cpuid m 0) else l <=? eax (cpuid m 0x80000000).

(** One bit of CPUID: leaf, subleaf, register, position. *)
Inductive place := Place (leaf sub : N) (register : regs -> N) (position : N).
Definition announces (m : cpu) (p : place) : Prop :=
  let '(Place l s r k) := p in leaf_exists m l /\ N.testbit (r (cpuidex m l s)) k = true.

(** The operating system has enabled these components of the register state:
    OSXSAVE is set (only then XCR0 exists) and so are the bits of XCR0. *)
Definition os_enabled (m : cpu) (state : list N) : Prop :=
  state = [] \/
  (announces m (Place 1 0 ecx 27) /\ forall i, In i state -> N.testbit (xcr0 m) i = true).

(** Components: SSE 1, AVX 2, MPX 3 and 4, AVX-512 5 to 7, AMX 17 and 18. *)
Definition avx_state : list N := [1; 2].
Definition avx512_state : list N := [1; 2; 5; 6; 7].
Definition mpx_state : list N := [3; 4].
Definition amx_state : list N := [17; 18].

Inductive entry := Entry (any_of : list place) (state : list N).

Definition l1_ecx := Place 1 0 ecx.
Definition l1_edx := Place 1 0 edx.
Definition l7_ebx := Place 7 0 ebx.
Definition l7_ecx := Place 7 0 ecx.
Definition l7_edx := Place 7 0 edx.
Definition l71_eax := Place 7 1 eax.
Definition l71_edx := Place 7 1 edx.
Definition ext_ecx := Place 0x80000001 0 ecx.
Definition ext_edx := Place 0x80000001 0 edx.

(** Bits that leaf 1 and leaf 0x80000001 both have in EDX. *)
Definition both_edx (k : N) : entry := Entry [l1_edx k; ext_edx k] [].
Definition plain (p : place) : entry := Entry [p] [].
Definition avx_class (p : place) : entry := Entry [p] avx_state.
Definition avx512_class (p : place) : entry := Entry [p] avx512_state.
Definition amx_class (p : place) : entry := Entry [p] amx_state.

(** [amd]: the vendor is AMD or Hygon.  [emmx]: a Cyrix or National Semiconductor
    processor, where the bit of FXSAVE has another meaning.  The three getters
    without an entry depend on more than single bits. *)
Definition documented (intel amd emmx : bool) (g : getter) : option entry :=
  match g with
  | Has_rdtsc => Some (both_edx 4)
  | Has_rdtscp => Some (plain (ext_edx 27))
  | Has_rdpid => Some (plain (l7_ecx 22))
  | Has_clzero => Some (plain (Place 0x80000008 0 ebx 0))
  | Has_mwait => Some (plain (l1_ecx 3))
  | Has_mwaitx => Some (plain (ext_ecx 29))
  | Has_fxsave => Some (if emmx then Entry [] [] else both_edx 24)
  | Has_xsave => Some (plain (l1_ecx 26))
  | Has_fpu => Some (both_edx 0)
  | Has_mmx => Some (both_edx 23)
  | Has_mmx_plus => Some (Entry [l1_edx 25; ext_edx 22] [])
  | Has_3dnow => Some (plain (ext_edx 31))
  | Has_3dnow_plus => Some (plain (ext_edx 30))
  | Has_3dnow_geode => None
  | Has_prefetch => Some (Entry (if intel then [] else [ext_edx 31; ext_edx 30] ++ (if amd then [ext_ecx 8; ext_edx 29] else [])) [])
  | Has_prefetchw => Some (Entry ([ext_ecx 8; ext_edx 31; ext_edx 30] ++ (if amd then [ext_edx 29] else [])) [])
  | Has_prefetchwt1 => Some (plain (l7_ecx 0))
  | Has_daz => None
  | Has_sse => Some (plain (l1_edx 25))
  | Has_sse2 => Some (plain (l1_edx 26))
  | Has_sse3 => Some (plain (l1_ecx 0))
  | Has_ssse3 => Some (plain (l1_ecx 9))
  | Has_sse4_1 => Some (plain (l1_ecx 19))
  | Has_sse4_2 => Some (plain (l1_ecx 20))
  | Has_sse4a => Some (plain (ext_ecx 6))
  | Has_misaligned_sse => Some (plain (ext_ecx 7))
  | Has_avx => Some (avx_class (l1_ecx 28))
  | Has_avxvnni => Some (avx_class (l71_eax 4))
  | Has_fma3 => Some (avx_class (l1_ecx 12))
  | Has_fma4 => Some (avx_class (ext_ecx 16))
  | Has_xop => Some (avx_class (ext_ecx 11))
  | Has_f16c => Some (avx_class (l1_ecx 29))
  | Has_avx2 => Some (avx_class (l7_ebx 5))
  | Has_avx512f => Some (avx512_class (l7_ebx 16))
  | Has_avx512pf => Some (avx512_class (l7_ebx 26))
  | Has_avx512er => Some (avx512_class (l7_ebx 27))
  | Has_avx512cd => Some (avx512_class (l7_ebx 28))
  | Has_avx512dq => Some (avx512_class (l7_ebx 17))
  | Has_avx512bw => Some (avx512_class (l7_ebx 30))
  | Has_avx512vl => Some (avx512_class (l7_ebx 31))
  | Has_avx512ifma => Some (avx512_class (l7_ebx 21))
  | Has_avx512vbmi => Some (avx512_class (l7_ecx 1))
  | Has_avx512vbmi2 => Some (avx512_class (l7_ecx 6))
  | Has_avx512bitalg => Some (avx512_class (l7_ecx 12))
  | Has_avx512vpopcntdq => Some (avx512_class (l7_ecx 14))
  | Has_avx512vnni => Some (avx512_class (l7_ecx 11))
  | Has_avx512bf16 => Some (avx512_class (l71_eax 5))
  | Has_avx512fp16 => Some (avx512_class (l7_edx 23))
  | Has_avx512vp2intersect => Some (avx512_class (l7_edx 8))
  | Has_avx512_4vnniw => Some (avx512_class (l7_edx 2))
  | Has_avx512_4fmaps => Some (avx512_class (l7_edx 3))
  | Has_amx_bf16 => Some (amx_class (l7_edx 22))
  | Has_amx_tile => Some (amx_class (l7_edx 24))
  | Has_amx_int8 => Some (amx_class (l7_edx 25))
  | Has_amx_fp16 => Some (amx_class (l71_eax 21))
  | Has_avx_vnni_int8 => Some (avx_class (l71_edx 4))
  | Has_avx_vnni_int16 => Some (avx_class (l71_edx 10))
  | Has_avx_ne_convert => Some (avx_class (l71_edx 5))
  | Has_avx10_1 => Some (avx512_class (l71_edx 19))
  | Has_avx10_2 => None
  | Has_hle => Some (plain (l7_ebx 4))
  | Has_rtm => Some (plain (l7_ebx 11))
  | Has_xtest => Some (Entry [l7_ebx 4; l7_ebx 11] [])
  | Has_mpx => Some (Entry [l7_ebx 14] mpx_state)
  | Has_cmov => Some (both_edx 15)
  | Has_cmpxchg8b => Some (both_edx 8)
  | Has_cmpxchg16b => Some (plain (l1_ecx 13))
  | Has_clwb => Some (plain (l7_ebx 24))
  | Has_movbe => Some (plain (l1_ecx 22))
  | Has_lahf_sahf => Some (plain (ext_ecx 0))
  | Has_lzcnt => Some (plain (ext_ecx 5))
  | Has_popcnt => Some (plain (l1_ecx 23))
  | Has_tbm => Some (plain (ext_ecx 21))
  | Has_bmi => Some (plain (l7_ebx 3))
  | Has_bmi2 => Some (plain (l7_ebx 8))
  | Has_adx => Some (plain (l7_ebx 19))
  | Has_aes => Some (plain (l1_ecx 25))
  | Has_vaes => Some (avx_class (l7_ecx 9))
  | Has_pclmulqdq => Some (plain (l1_ecx 1))
  | Has_vpclmulqdq => Some (avx_class (l7_ecx 10))
  | Has_gfni => Some (plain (l7_ecx 8))
  | Has_rdrand => Some (plain (l1_ecx 30))
  | Has_rdseed => Some (plain (l7_ebx 18))
  | Has_sha => Some (plain (l7_ebx 29))
  end.

(** Answers fixed by the build: x86-64 guarantees SSE2 and what came before it
    (CMPXCHG16B exists there only, LAHF/SAHF always exists in 32-bit mode, 3DNow!
    Geode never in 64-bit mode), the Android ABIs SSSE3, and SSE4.2 and POPCNT on
    x86-64. *)
Definition x86_64_baseline (g : getter) : bool :=
  match g with
  | Has_rdtsc | Has_fpu | Has_mmx | Has_mmx_plus | Has_daz | Has_sse | Has_sse2 => true
  | _ => false
  end.
Definition by_build (b : build) (g : getter) : option bool :=
  match g with
  | Has_cmov | Has_cmpxchg8b => if b_x86_32 b then None else Some true
  | Has_cmpxchg16b => if b_x86_32 b then Some false else None
  | Has_lahf_sahf => if b_x86_32 b then Some true else None
  | Has_3dnow_geode => if b_x86_32 b && negb (b_android b) then None else Some false
  | Has_sse3 | Has_ssse3 => if b_android b then Some true else None
  | Has_sse4_1 | Has_sse4_2 | Has_popcnt => if negb (b_x86_32 b) && b_android b then Some true else None
  | _ => if x86_64_baseline g && (negb (b_x86_32 b) || b_android b) then Some true else None
  end.

(** What processors guarantee: OSXSAVE implies XSAVE; a bit of XCR0 can be set only
    if leaf 0xD lists it; AVX10 comes with leaf 0x24. *)
Record coherent (m : cpu) : Prop := {
  co_xsave : announces m (Place 1 0 ecx 27) -> announces m (Place 1 0 ecx 26);
  co_xcr0 : forall i, i < 32 -> announces m (Place 1 0 ecx 27) -> N.testbit (xcr0 m) i = true -> announces m (Place 0xD 0 eax i);
  co_avx10 : announces m (Place 7 1 edx 19) -> leaf_exists m 0x24
}.

(** cpuinfo_has_x86_<g>() after initialisation on processor [m]. *)
Definition reports (b : build) (m : cpu) (g : getter) : Prop := has_x86 b (init_isa b m) g = true.

Definition vendor_of (b : build) (m : cpu) : N := decode_vendor b (ebx (cpuid m 0)) (ecx (cpuid m 0)) (edx (cpuid m 0)).

(** The entry of a getter on a processor. *)
Definition documented_on (b : build) (m : cpu) (g : getter) : option entry :=
  let v := vendor_of b m in
  documented (v =? vendor_intel) ((v =? vendor_amd) || (v =? vendor_hygon))
    (b_x86_32 b && ((v =? vendor_cyrix) || (v =? vendor_nsc))) g.

(** The getters whose gate in the code is not the documented one. *)
Definition amx_getter (g : getter) : Prop := g = Has_amx_bf16 \/ g = Has_amx_tile \/ g = Has_amx_int8 \/ g = Has_amx_fp16.
Definition vaes_getter (g : getter) : Prop := g = Has_vaes \/ g = Has_vpclmulqdq.

Definition with_xcr0 (m : cpu) (x : N) : cpu := Cpu (cpuidex m) (cpuid2 m) x (mxcsr_mask m).
