(** What the getters for instruction sets of ARM processors should say.  The numbers of bits
    are those of the kernel's headers, arch/arm64/include/uapi/asm/hwcap.h and
    arch/arm/include/uapi/asm/hwcap.h. *)
From Verif Require Import Base ArmClustersModel ArmClusterMidrModel ArmUarchModel ArmIsaModel.
Open Scope N_scope.

(** ** The fields of a main id register *)
Definition implementer_of (midr : N) : N := midr / 2 ^ 24 mod 2 ^ 8.
Definition variant_of (midr : N) : N := midr / 2 ^ 20 mod 2 ^ 4.
Definition part_of (midr : N) : N := midr / 2 ^ 4 mod 2 ^ 12.
Definition designed (midr : N) (cores : list (N * N)) : Prop := In (implementer_of midr, part_of midr) cores.

(** ** AArch64 *)

(** Extensions for which only the kernel is asked: the word (the first is AT_HWCAP, the
    second AT_HWCAP2) and the bit. *)
Inductive word := Hwcap | Hwcap2.
Definition kernel_bits64 : list (getter * (word * N)) :=
  [(Has_aes, (Hwcap, 3)); (Has_pmull, (Hwcap, 4)); (Has_sha1, (Hwcap, 5)); (Has_sha2, (Hwcap, 6)); (Has_crc32, (Hwcap, 7));
   (Has_atomics, (Hwcap, 8)); (Has_jscvt, (Hwcap, 13)); (Has_fcma, (Hwcap, 14)); (Has_sve, (Hwcap, 22)); (Has_fhm, (Hwcap, 23));
   (Has_sve2, (Hwcap2, 1)); (Has_i8mm, (Hwcap2, 13)); (Has_sme, (Hwcap2, 23)); (Has_sme2, (Hwcap2, 37)); (Has_sme2p1, (Hwcap2, 38));
   (Has_sme_i16i32, (Hwcap2, 39)); (Has_sme_bi32i32, (Hwcap2, 40)); (Has_sme_b16b16, (Hwcap2, 41)); (Has_sme_f16f16, (Hwcap2, 42))].
Definition bit (features features2 : N) (w : word) (n : N) : bool :=
  N.testbit (match w with Hwcap => features | Hwcap2 => features2 end) n.

(** What every AArch64 processor has. *)
Definition base64 : list getter :=
  [Has_v8; Has_idiv; Has_vfpv3; Has_vfpv3_d32; Has_vfpv3_fp16; Has_vfpv3_fp16_d32; Has_vfpv4; Has_vfpv4_d32; Has_neon; Has_neon_fp16;
   Has_neon_fma; Has_neon_v8].
(** What no AArch64 program can use. *)
Definition absent64 : list getter :=
  [Has_thumb; Has_thumb2; Has_v5e; Has_v6; Has_v6k; Has_v7; Has_v7mp; Has_vfpv2; Has_wmmx; Has_wmmx2].

(** Cores by implementer and part.  FP16 and RDM: Cortex-A55, A65, A75, A76, A77, A76AE,
    Neoverse N1, V1, N2 and V2, the Cortex-A76 of HiSilicon, Kryo 385 and 485, Exynos M4 and M5. *)
Definition fp16_designs64 : list (N * N) :=
  [(0x41, 0xD05); (0x41, 0xD06); (0x41, 0xD0A); (0x41, 0xD0B); (0x41, 0xD0D); (0x41, 0xD0E); (0x41, 0xD0C); (0x41, 0xD40);
   (0x41, 0xD49); (0x41, 0xD4F); (0x48, 0xD40); (0x51, 0x802); (0x51, 0x803); (0x51, 0x804); (0x51, 0x805); (0x53, 3); (0x53, 4)].
(** The dot product in every revision: without Cortex-A55 and A75 and Kryo 385, but with Neoverse E1. *)
Definition dot_designs64 : list (N * N) :=
  [(0x41, 0xD06); (0x41, 0xD0B); (0x41, 0xD0D); (0x41, 0xD0E); (0x41, 0xD0C); (0x41, 0xD40); (0x41, 0xD49); (0x41, 0xD4A);
   (0x41, 0xD4F); (0x48, 0xD40); (0x51, 0x804); (0x51, 0x805); (0x53, 3); (0x53, 4)].
(** The dot product from some revision (variant) on. *)
Definition cortex_a55 (midr : N) : Prop := designed midr [(0x41, 0xD05)].
Definition cortex_a75 (midr : N) : Prop := designed midr [(0x41, 0xD0A)].

(** The microarchitectures of the processors with FP16. *)
Definition late_uarchs : list N :=
  [u_cortex_a55r0; u_cortex_a55; u_cortex_a65; u_cortex_a75; u_cortex_a76; u_cortex_a77; u_neoverse_n1; u_neoverse_v1; u_neoverse_n2;
   u_neoverse_v2; u_exynos_m4; u_exynos_m5].
(** Samsung Exynos 9810: only its little cores have FP16. *)
Definition exynos_9810 (chip : chipset) : Prop := ch_series chip = 6 /\ ch_model chip = 9810.
(** Spreadtrum SC9863A, Unisoc T310 and UMS312: the dot product raises SIGILL. *)
Definition faulty_dot (chip : chipset) : Prop :=
  ch_series chip = 26 /\ ch_model chip = 9863 \/ ch_series chip = 29 /\ ch_model chip = 310 \/ ch_series chip = 30 /\ ch_model chip = 312.

(** Every bit of one word is one of the other. *)
Definition included (a b : N) : Prop := forall n, N.testbit a n = true -> N.testbit b n = true.

(** ** 32-bit ARM *)

Definition any_bit (w : N) (bits : list N) : Prop := exists n, In n bits /\ N.testbit w n = true.

(** Bits of AT_HWCAP on 32-bit ARM. *)
Definition h_thumb : N := 2.
Definition h_vfp : N := 6.
Definition h_edsp : N := 7.
Definition h_iwmmxt : N := 9.
Definition h_neon : N := 12.
Definition h_vfpv3 : N := 13.
Definition h_vfpv3d16 : N := 14.
Definition h_vfpv4 : N := 16.
Definition h_idiva : N := 17.
Definition h_idivt : N := 18.
Definition h_vfpd32 : N := 19.

(** ARMv8: by number, or by one of the cryptographic and CRC extensions (AT_HWCAP2, bits 0 to 4). *)
Definition is_v8 (features2 version : N) : Prop := 8 <= version \/ any_bit features2 [0; 1; 2; 3; 4].
Definition arm11 (midr : N) : Prop := implementer_of midr = 0x41 /\ part_of midr / 2 ^ 8 = 0xB.
(** ARMv7 or later: also by number, unless the processor is an ARM11, or by an extension that
    only ARMv7 has. *)
Definition is_v7 (features features2 midr version : N) : Prop :=
  is_v8 features2 version \/ version = 7 /\ ~ arm11 midr \/
  any_bit features [h_vfpv3; h_vfpv3d16; h_vfpd32; h_vfpv4; h_neon; h_idiva; h_idivt].
Definition is_v6 (features features2 midr version : N) : Prop := is_v7 features features2 midr version \/ 6 <= version.

(** Designs that have the multiprocessing extension or the division in any case. *)
Definition mp_designs : list (N * N) := [(0x41, 0xC05); (0x41, 0xC09); (0x51, 0x02D); (0x51, 0x04D); (0x51, 0x06F)].
(** ARM1156 has Thumb-2 before ARMv7. *)
Definition arm1156 : N * N := (0x41, 0xB56).
Definition krait : list (N * N) := [(0x51, 0x04D); (0x51, 0x06F)].
Definition fp16_storage : list (N * N) := [(0x41, 0xC09); (0x51, 0x00F); (0x51, 0x02D)].
(** In addition to the cores known on AArch64: Cortex-A78, A510, A710, A715, X1, X2 and X3,
    but not Cortex-A65 and Neoverse E1. *)
Definition fp16_designs32 : list (N * N) :=
  [(0x41, 0xD05); (0x41, 0xD0A); (0x41, 0xD0B); (0x41, 0xD0D); (0x41, 0xD0E); (0x41, 0xD0C); (0x41, 0xD40); (0x41, 0xD49);
   (0x41, 0xD4F); (0x48, 0xD40); (0x51, 0x802); (0x51, 0x803); (0x51, 0x804); (0x51, 0x805); (0x53, 3); (0x53, 4);
   (0x41, 0xD41); (0x41, 0xD46); (0x41, 0xD47); (0x41, 0xD4D); (0x41, 0xD44); (0x41, 0xD48); (0x41, 0xD4E)].
Definition dot_designs32 : list (N * N) :=
  [(0x41, 0xD0B); (0x41, 0xD0D); (0x41, 0xD0E); (0x41, 0xD0C); (0x41, 0xD40); (0x41, 0xD49); (0x41, 0xD4F); (0x48, 0xD40);
   (0x51, 0x804); (0x51, 0x805); (0x53, 3); (0x53, 4); (0x41, 0xD41); (0x41, 0xD46); (0x41, 0xD47); (0x41, 0xD4D); (0x41, 0xD44);
   (0x41, 0xD48); (0x41, 0xD4E)].
Definition known_dot32 (midr : N) : Prop :=
  designed midr dot_designs32 \/ cortex_a55 midr /\ 1 <= variant_of midr \/ cortex_a75 midr /\ 2 <= variant_of midr.

(** What builds on what. *)
Definition builds_on : list (getter * getter) :=
  [(Has_v8, Has_v7); (Has_v7, Has_v6k); (Has_v6k, Has_v6); (Has_v6, Has_v5e); (Has_v7mp, Has_v7); (Has_v8, Has_v7mp);
   (Has_thumb2, Has_thumb); (Has_v8, Has_thumb2); (Has_v8, Has_idiv);
   (Has_v8, Has_neon); (Has_v8, Has_vfpv4_d32); (Has_v8, Has_vfpv3_fp16_d32); (Has_v8, Has_neon_fp16); (Has_v8, Has_neon_fma);
   (Has_neon, Has_vfpv3_d32); (Has_neon, Has_v7); (Has_vfpv3_d32, Has_vfpv3); (Has_vfpv3_fp16, Has_vfpv3);
   (Has_vfpv3_fp16_d32, Has_vfpv3_fp16); (Has_vfpv3_fp16_d32, Has_vfpv3_d32); (Has_vfpv4, Has_vfpv3_fp16);
   (Has_vfpv4_d32, Has_vfpv4); (Has_vfpv4_d32, Has_vfpv3_d32); (Has_vfpv4, Has_v7);
   (Has_neon_fp16, Has_neon); (Has_neon_fp16, Has_vfpv3_fp16_d32); (Has_neon_fma, Has_neon); (Has_neon_fma, Has_vfpv4_d32);
   (Has_neon_fma, Has_neon_fp16); (Has_neon_v8, Has_neon_fma); (Has_neon_v8, Has_v8); (Has_v8, Has_neon_v8);
   (Has_wmmx2, Has_wmmx);
   (Has_neon_fp16_arith, Has_neon_v8); (Has_fp16_arith, Has_neon_fp16_arith); (Has_neon_rdm, Has_neon_v8);
   (Has_neon_rdm, Has_fp16_arith); (Has_fp16_arith, Has_neon_rdm); (Has_neon_dot, Has_neon_v8);
   (Has_aes, Has_neon_v8); (Has_pmull, Has_neon_v8); (Has_sha1, Has_neon_v8); (Has_sha2, Has_neon_v8); (Has_crc32, Has_v8)].
(** What no getter reports on 32-bit ARM. *)
Definition absent32 : list getter :=
  [Has_bf16; Has_atomics; Has_fhm; Has_neon_bf16; Has_jscvt; Has_fcma; Has_i8mm; Has_sve; Has_sve_bf16; Has_sve2; Has_sme; Has_sme2;
   Has_sme2p1; Has_sme_i16i32; Has_sme_bi32i32; Has_sme_b16b16; Has_sme_f16f16].

(** ** Where words and registers come from *)

(** Entries of the auxiliary vector up to the end of the file. *)
Definition entries_of (entries : list (N * N)) : list auxv_read := map (fun e => Entry (fst e) (snd e)) entries.
(** The value of the last entry of a type, or zero. *)
Definition last_value (type : N) (entries : list (N * N)) (v : N) : Prop :=
  (exists before after, entries = before ++ (type, v) :: after /\ (forall w, ~ In (type, w) after)) \/
  v = 0 /\ forall w, ~ In (type, w) entries.

(** The value that the last element with a property gives. *)
Definition last_of {A B} (P : A -> Prop) (f : A -> B) (l : list A) (default v : B) : Prop :=
  (exists before x after, l = before ++ x :: after /\ P x /\ v = f x /\ Forall (fun y => ~ P y) after) \/
  v = default /\ Forall (fun y => ~ P y) l.

(** A usable processor (0x1000) with every field of its main id register (0x3F0000), with an
    architecture (0x10000), with a list of features (0x400000). *)
Definition has_midr (p : aproc) : Prop := included 0x1000 (a_flags p) /\ included 0x3F0000 (a_flags p).
Definition has_architecture (p : aproc) : Prop := included 0x1000 (a_flags p) /\ included 0x10000 (a_flags p).
Definition has_features (p : aproc) : Prop := included 0x1000 (a_flags p) /\ included 0x400000 (a_flags p).

(** ** 32-bit ARM: when each getter is true *)
Record inputs := Inputs {
  in_features : N; in_features2 : N; in_midr : N; in_version : N; in_letters : N; in_chip : chipset; in_target : target }.
Definition has32 (x : inputs) (g : getter) : Prop :=
  has_arm true (decode_isa32 (in_features x) (in_features2 x) (in_midr x) (in_version x) (in_letters x) (in_chip x) (in_target x) no_isa) g = true.
Definition kernel (x : inputs) (n : N) : Prop := N.testbit (in_features x) n = true.
Definition kernel2 (x : inputs) (n : N) : Prop := N.testbit (in_features2 x) n = true.
(** The letters T, E and J after the version, as /proc/cpuinfo gives them. *)
Definition letter (x : inputs) (n : N) : Prop := N.testbit (in_letters x) n = true.
Definition v8 (x : inputs) : Prop := is_v8 (in_features2 x) (in_version x).
Definition v7 (x : inputs) : Prop := is_v7 (in_features x) (in_features2 x) (in_midr x) (in_version x).
Definition v6 (x : inputs) : Prop := is_v6 (in_features x) (in_features2 x) (in_midr x) (in_version x).
Definition core_in (x : inputs) (designs : list (N * N)) : Prop := designed (in_midr x) designs.
Definition divides (x : inputs) : Prop := kernel x h_idiva /\ kernel x h_idivt.
Definition some_vfp (x : inputs) : Prop := any_bit (in_features x) [h_vfp; h_vfpv3; h_vfpv3d16; h_vfpd32; h_vfpv4; h_neon].
Definition all_registers (x : inputs) : Prop := any_bit (in_features x) [h_vfpd32; h_neon].
(** The type of the coprocessor in wCID and the subarchitecture in FPSID. *)
Definition wireless (x : inputs) : N := tg_wcid (in_target x) / 2 ^ 8 mod 2 ^ 8.
Definition subarchitecture (x : inputs) : N := tg_fpsid (in_target x) / 2 ^ 16 mod 2 ^ 7.
Definition wireless_unit (x : inputs) : Prop := ~ v8 x /\ kernel x h_iwmmxt /\ tg_armv8 (in_target x) = false.

Definition meaning32 (x : inputs) (g : getter) : Prop :=
  match g with
  | Has_v8 | Has_neon_v8 => v8 x
  | Has_v7 | Has_v6k => v7 x
  | Has_v6 => v6 x
  | Has_v5e => v6 x \/ kernel x h_edsp \/ letter x 1
  | Has_v7mp => v8 x \/ v7 x /\ (core_in x mp_designs \/ divides x)
  | Has_thumb => v8 x \/ kernel x h_thumb \/ letter x 0
  | Has_thumb2 => v8 x \/ (kernel x h_thumb \/ letter x 0) /\ (v7 x \/ core_in x [arm1156])
  | Has_idiv => v8 x \/ divides x \/ core_in x krait
  | Has_vfpv2 => ~ v7 x /\ kernel x h_vfp /\ tg_armv7 (in_target x) = false /\ 1 <= subarchitecture x
  | Has_vfpv3 => v8 x \/ some_vfp x /\ (v7 x \/ tg_armv7 (in_target x) = true)
  | Has_vfpv3_d32 => v8 x \/ all_registers x
  | Has_vfpv3_fp16 => v8 x \/ kernel x h_vfpv4 \/ some_vfp x /\ (v7 x \/ tg_armv7 (in_target x) = true) /\ core_in x fp16_storage
  | Has_vfpv3_fp16_d32 => v8 x \/ all_registers x /\ (kernel x h_vfpv4 \/ core_in x fp16_storage)
  | Has_vfpv4 => v8 x \/ kernel x h_vfpv4
  | Has_vfpv4_d32 => v8 x \/ kernel x h_vfpv4 /\ all_registers x
  | Has_neon => v8 x \/ kernel x h_neon
  | Has_neon_fp16 => v8 x \/ kernel x h_neon /\ (kernel x h_vfpv4 \/ core_in x fp16_storage)
  | Has_neon_fma => v8 x \/ kernel x h_neon /\ kernel x h_vfpv4
  | Has_wmmx => wireless_unit x /\ 0x10 <= wireless x
  | Has_wmmx2 => wireless_unit x /\ 0x20 <= wireless x
  | Has_fp16_arith | Has_neon_fp16_arith | Has_neon_rdm => v8 x /\ ~ exynos_9810 (in_chip x) /\ core_in x fp16_designs32
  | Has_neon_dot => v8 x /\ ~ faulty_dot (in_chip x) /\ known_dot32 (in_midr x)
  | Has_aes => kernel2 x 0
  | Has_pmull => kernel2 x 1
  | Has_sha1 => kernel2 x 2
  | Has_sha2 => kernel2 x 3
  | Has_crc32 => kernel2 x 4
  | _ => False
  end.
(** The usable ones. *)
Definition usable_ones (ps : list aproc) : list aproc := filter (fun p => N.testbit (a_flags p) 12) ps.
