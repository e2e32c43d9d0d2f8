(** Property theorems about the instruction sets of ARM processors: C53 AArch64, C54 32-bit
    ARM, C55 where the words and registers come from. *)
From Verif Require Import Base ArmClustersModel ArmClusterMidrModel ArmUarchModel ArmIsaModel ArmIsaSpec ArmIsaProofs ArmIsa32Proofs.
Open Scope N_scope.

(** ** C53 *)

(** Nineteen extensions are reported exactly if the kernel reports them, whatever the
    processor, the chip and the other words say. *)
Theorem arm64_kernel_bits : forall hwcap hwcap2 t chip ps g w n, In (g, (w, n)) kernel_bits64 ->
  has_arm false (arm_linux_isa false (Getauxval hwcap hwcap2) t chip ps) g = bit hwcap hwcap2 w n.
Proof. exact linux_kernel_bits. Qed.
Print Assumptions arm64_kernel_bits.

(** BF16 and SVE BF16; the base of the architecture; what does not exist in it. *)
Theorem arm64_bf16 : forall features features2 midr chip,
  let i := decode_isa64 features features2 midr chip no_isa in
  has_arm false i Has_bf16 = N.testbit features2 14 || N.testbit features2 12 /\
  has_arm false i Has_neon_bf16 = has_arm false i Has_bf16 /\
  has_arm false i Has_sve_bf16 = has_arm false i Has_sve && has_arm false i Has_bf16.
Proof. exact bf16_getters. Qed.
Print Assumptions arm64_bf16.
Theorem arm64_base : forall i,
  (forall g, In g base64 -> has_arm false i g = true) /\ (forall g, In g absent64 -> has_arm false i g = false).
Proof. exact base_getters. Qed.
Print Assumptions arm64_base.

(** FP16 arithmetic and RDM: also by the design, but never on Exynos 9810. *)
Theorem arm64_fp16 : forall features features2 midr chip,
  let i := decode_isa64 features features2 midr chip no_isa in
  (has_arm false i Has_fp16_arith = true <->
     ~ exynos_9810 chip /\ (designed midr fp16_designs64 \/ N.testbit features 9 = true /\ N.testbit features 10 = true)) /\
  (has_arm false i Has_neon_rdm = true <->
     ~ exynos_9810 chip /\ (designed midr fp16_designs64 \/ N.testbit features 12 = true)) /\
  has_arm false i Has_neon_fp16_arith = has_arm false i Has_fp16_arith.
Proof. exact fp16_getters. Qed.
Print Assumptions arm64_fp16.

(** The dot product: by the design, and for Cortex-A55 and A75 by the revision. *)
Theorem arm64_dot : forall features features2 midr chip,
  has_arm false (decode_isa64 features features2 midr chip no_isa) Has_neon_dot = true <->
  designed midr dot_designs64 \/ cortex_a55 midr /\ 1 <= variant_of midr \/ cortex_a75 midr /\ 2 <= variant_of midr \/
  ~ cortex_a55 midr /\ ~ cortex_a75 midr /\ N.testbit features 20 = true.
Proof. exact dot_getter. Qed.
Print Assumptions arm64_dot.

(** Another extension reported by the kernel never takes one away. *)
Theorem arm64_monotone : forall features features' features2 features2' midr chip g,
  included features features' -> included features2 features2' ->
  has_arm false (decode_isa64 features features2 midr chip no_isa) g = true ->
  has_arm false (decode_isa64 features' features2' midr chip no_isa) g = true.
Proof. exact monotone64. Qed.
Print Assumptions arm64_monotone.

(** The list of designs agrees with the names the library gives them: a named
    microarchitecture with FP16 is known to have it, and a design known to have it is named
    (for Samsung, in the revision that is named at all). *)
Theorem arm64_designs_named : forall midr v,
  (In (snd (decode_vendor_uarch false midr v)) late_uarchs -> designed midr fp16_designs64) /\
  (designed midr fp16_designs64 -> (implementer_of midr = 0x53 -> variant_of midr = 1) ->
   In (snd (decode_vendor_uarch false midr v)) late_uarchs).
Proof. exact (fun midr v => conj (late_named midr v) (named_late midr v)). Qed.
Print Assumptions arm64_designs_named.

(** What the kernel does not report is reported only if a usable processor has a design
    known to have it. *)
Theorem arm64_extra_source : forall c t chip ps,
  (has_arm false (arm_linux_isa false c t chip ps) Has_neon_dot = true ->
   N.testbit (fst (feature_words c ps)) 20 = true \/
   exists p, In p ps /\ has_midr p /\ designed (a_midr p) ((0x41, 0xD05) :: (0x41, 0xD0A) :: dot_designs64)) /\
  (forall g, In g [Has_fp16_arith; Has_neon_fp16_arith; Has_neon_rdm] ->
   has_arm false (arm_linux_isa false c t chip ps) g = true ->
   N.testbit (fst (feature_words c ps)) (match g with Has_neon_rdm => 12 | _ => 10 end) = true \/
   exists p, In p ps /\ has_midr p /\ designed (a_midr p) fp16_designs64).
Proof. exact (fun c t chip ps => conj (linux_dot_source c t chip ps) (linux_fp16_source c t chip ps)). Qed.
Print Assumptions arm64_extra_source.

(** The length of vectors: prctl gives bytes in its low 16 bits, the getter bits; 0 after a failure. *)
Theorem arm64_vector_length :
  (forall vl flags, vl < 2 ^ 16 -> max_arm_sve_length false (sve_length_of (Z.of_N (flags * 2 ^ 16 + vl))) = 8 * vl) /\
  (forall e, (e < 0)%Z -> max_arm_sve_length false (sve_length_of e) = 0).
Proof. exact (conj sve_length sve_length_failure). Qed.
Print Assumptions arm64_vector_length.

(** Graviton 3: Neoverse V1 with SVE of 32 bytes.  The words are those of Linux 6.1. *)
Definition graviton3 : N := 0x411FD401.
Definition no_chip : chipset := Chipset 0 0 0.
Definition no_target : target := Target false false 0 0.
Definition complete (midr : N) : aproc := AProc 0x3F1000 midr 0 0 0 0 0 0 0 0 areport0.
Example arm64_case :
  let i := arm_linux_isa false (Getauxval 0xBFFFFFFF 0x2F33F) no_target no_chip [complete graviton3; complete graviton3] in
  In (snd (decode_vendor_uarch false graviton3 true)) late_uarchs /\
  has_arm false i Has_sve = true /\ has_arm false i Has_bf16 = true /\ has_arm false i Has_neon_dot = true /\
  has_arm false i Has_sme = false /\ max_arm_sve_length false (sve_length_of 0x20020) = 256.
Proof. vm_compute. tauto. Qed.
(** Cortex-A53 with CRC and cryptography only. *)
Example arm64_plain_case :
  let i := arm_linux_isa false (Getauxval 0xFF 0) no_target no_chip [complete 0x410FD034] in
  has_arm false i Has_aes = true /\ has_arm false i Has_crc32 = true /\ has_arm false i Has_atomics = false /\
  has_arm false i Has_neon_dot = false /\ has_arm false i Has_fp16_arith = false /\ has_arm false i Has_neon_fma = true.
Proof. vm_compute. tauto. Qed.

(** "No chip on which an extension is known to fail reports it" is false: the list of chips
    whose dot product raises SIGILL is consulted in 32-bit processes only. *)
Theorem arm64_faulty_dot_refuted :
  exists c t chip ps, faulty_dot chip /\ Forall has_midr ps /\ N.testbit (fst (feature_words c ps)) 20 = false /\
    has_arm false (arm_linux_isa false c t chip ps) Has_neon_dot = true.
Proof.
  exists (Getauxval 0xFF 0), no_target, (Chipset 9 26 9863), [complete 0x411FD050].
  split; [now left|]. split; [|vm_compute; tauto].
  constructor; [|constructor]. split; apply bitmask_all_included; vm_compute; reflexivity.
Qed.
Print Assumptions arm64_faulty_dot_refuted.

(** "A reported extension is one of all processors" is false: only the last processor is looked at. *)
Theorem arm64_every_processor_refuted :
  exists c t chip ps p, In p ps /\ Forall has_midr ps /\ designed (a_midr p) [(0x41, 0xD03)] /\
    feature_words c ps = (0xFF, 0) /\
    has_arm false (arm_linux_isa false c t chip ps) Has_neon_dot = true /\
    has_arm false (arm_linux_isa false c t chip ps) Has_fp16_arith = true.
Proof.
  exists (Getauxval 0xFF 0), no_target, no_chip, [complete 0x410FD034; complete 0x411FD0B0], (complete 0x410FD034).
  split; [now left|]. split; [|vm_compute; tauto].
  repeat constructor; apply bitmask_all_included; vm_compute; reflexivity.
Qed.
Print Assumptions arm64_every_processor_refuted.

(** "Exactly if the kernel reports it, or the processor is known to have it" is false for the
    dot product of early Cortex-A55 and A75: what the kernel reports is ignored. *)
Theorem arm64_dot_hidden_refuted :
  exists features features2 midr chip, N.testbit features 20 = true /\
    has_arm false (decode_isa64 features features2 midr chip no_isa) Has_neon_dot = false.
Proof. exists 0x100000, 0, 0x410FD050, no_chip. vm_compute. tauto. Qed.
Print Assumptions arm64_dot_hidden_refuted.

(** ** C54 *)

(** Every getter is true exactly in the cases of [meaning32]. *)
Theorem arm32_getters_exact : forall x g, has32 x g <-> meaning32 x g.
Proof. exact meaning_all. Qed.
Print Assumptions arm32_getters_exact.

(** No extension without what it builds on. *)
Theorem arm32_builds_on : forall x a b, In (a, b) builds_on -> has32 x a -> has32 x b.
Proof. exact builds. Qed.
Print Assumptions arm32_builds_on.

(** Extensions that 32-bit code cannot use are never reported. *)
Theorem arm32_absent : forall x g, In g absent32 -> ~ has32 x g.
Proof. exact absent. Qed.
Print Assumptions arm32_absent.

(** A Cortex-A9 with NEON, and an ARMv8 processor with cryptography running 32-bit code. *)
Definition a9_inputs : inputs := Inputs 0xB0D7 0 0x413FC090 7 0 no_chip (Target true false 0 0).
Definition a76_inputs : inputs := Inputs 0x27B0D7 0x1F 0x411FD0B0 8 0 no_chip (Target true false 0 0).
Example arm32_case :
  has32 a9_inputs Has_neon_fp16 /\ has32 a9_inputs Has_v7mp /\ ~ has32 a9_inputs Has_vfpv4 /\ ~ has32 a9_inputs Has_idiv /\
  has32 a76_inputs Has_neon_dot /\ has32 a76_inputs Has_aes /\ has32 a76_inputs Has_neon_fma.
Proof. unfold has32. vm_compute. repeat split; discriminate. Qed.
(** Raspberry Pi 1: an ARM1176 calling itself ARMv7, with VFPv2. *)
Definition pi1_inputs : inputs := Inputs 0x80D6 0 0x410FB767 7 0 no_chip (Target false false 0 0x410120B5).
Example arm32_old_case :
  has32 pi1_inputs Has_v6 /\ ~ has32 pi1_inputs Has_v7 /\ has32 pi1_inputs Has_vfpv2 /\ ~ has32 pi1_inputs Has_vfpv3 /\
  has32 pi1_inputs Has_thumb /\ ~ has32 pi1_inputs Has_thumb2.
Proof. unfold has32. vm_compute. repeat split; discriminate. Qed.

(** "NEON and VFPv3 include VFPv2" is false: the getter for VFPv2 is false for them. *)
Theorem arm32_vfpv2_refuted : exists x, has32 x Has_neon /\ has32 x Has_vfpv3 /\ ~ has32 x Has_vfpv2.
Proof. exists a9_inputs. unfold has32. vm_compute. repeat split; discriminate. Qed.
Print Assumptions arm32_vfpv2_refuted.

(** "Learning of more extensions never takes one away" is false on 32-bit ARM: VFPv3 takes VFPv2 away. *)
Theorem arm32_monotone_refuted :
  exists features features' midr version letters chip t,
    included features features' /\
    has32 (Inputs features 0 midr version letters chip t) Has_vfpv2 /\
    ~ has32 (Inputs features' 0 midr version letters chip t) Has_vfpv2.
Proof.
  exists 0x40, 0x2040, 0x410FB767, 6, 0, no_chip, (Target false false 0 0x410120B5).
  split; [apply bitmask_all_included; vm_compute; reflexivity|]. unfold has32. vm_compute. repeat split; discriminate.
Qed.
Print Assumptions arm32_monotone_refuted.

(** "Later architectures include Thumb" is false: an ARMv7 processor without the word for Thumb. *)
Theorem arm32_thumb_refuted : exists x, has32 x Has_v7 /\ has32 x Has_neon /\ ~ has32 x Has_thumb /\ ~ has32 x Has_thumb2.
Proof. exists (Inputs 0x1000 0 0x413FC090 7 0 no_chip (Target true false 0 0)). unfold has32. vm_compute. repeat split; discriminate. Qed.
Print Assumptions arm32_thumb_refuted.

(** ** C55 *)

(** The auxiliary vector, however long and whatever else it holds: the last values for 16 and
    26 are used as if getauxval had given them. *)
Theorem arm_auxv_words : forall arm32 entries tail t chip ps,
  (forall e, In e entries -> fst e < two32 /\ snd e < two32) -> tail = [] \/ (exists r, tail = Short 0 :: r) ->
  exists hwcap hwcap2, last_value 16 entries hwcap /\ last_value 26 entries hwcap2 /\
    arm_linux_isa arm32 (Android_without (Some (entries_of entries ++ tail))) t chip ps =
    arm_linux_isa arm32 (Getauxval hwcap hwcap2) t chip ps.
Proof. exact linux_auxv. Qed.
Print Assumptions arm_auxv_words.

(** If the file cannot be opened, or reading it fails or ends inside an entry: an extension is
    used if and only if some usable processor has a list of features, and all those name it. *)
Theorem arm_cpuinfo_words : forall file ps k,
  file = None \/ (exists entries bad tail, file = Some (entries_of entries ++ bad :: tail) /\ (bad = Failed \/ exists n, bad = Short (S n))) ->
  let words := feature_words (Android_without file) ps in
  (N.testbit (fst words) k = true <->
     (exists p, In p ps /\ has_features p) /\ forall p, In p ps -> has_features p -> N.testbit (ar_features (a_report p)) k = true) /\
  (N.testbit (snd words) k = true <->
     (exists p, In p ps /\ has_features p) /\ forall p, In p ps -> has_features p -> N.testbit (ar_features2 (a_report p)) k = true).
Proof. exact linux_intersection. Qed.
Print Assumptions arm_cpuinfo_words.

(** The register and the architecture of the last usable processor that has all of it. *)
Theorem arm_deciding_registers : forall ps,
  last_of has_midr a_midr ps 0 (last_midr ps) /\
  last_of has_architecture (fun p => (ar_architecture_version (a_report p), ar_architecture_flags (a_report p))) ps (0, 0) (last_architecture ps).
Proof. exact linux_registers. Qed.
Print Assumptions arm_deciding_registers.

(** Unusable processors have no influence at all. *)
Theorem arm_unusable_ignored : forall arm32 c t chip ps,
  arm_linux_isa arm32 c t chip (usable_ones ps) = arm_linux_isa arm32 c t chip ps.
Proof. exact linux_usable. Qed.
Print Assumptions arm_unusable_ignored.

(** A vector with other entries around, and two processors of which only one has NEON. *)
Definition with_features (features : N) : aproc :=
  AProc 0x7F1000 0x413FC090 0 0 0 0 0 0 0 0 (AReport 7 0 l1_report0 l1_report0 features 0).
Example arm_words_case :
  read_auxv (entries_of [(33, 0xBEEF); (16, 0xB0D7); (6, 4096); (26, 0x10); (0, 0)]) 0 0 = Some (0xB0D7, 0x10) /\
  feature_words (Android_without None) [with_features 0xB0D7; aproc0; with_features 0xA0D7] = (0xA0D7, 0) /\
  last_midr [with_features 0; complete 0x411FD0B0; aproc0] = 0x411FD0B0.
Proof. vm_compute. tauto. Qed.

(** "Otherwise the lists of /proc/cpuinfo are used" is false on 32-bit ARM with a C library
    other than glibc and Bionic: the words stay zero, and NEON named by every processor is not
    reported. *)
Theorem arm_other_libc_refuted :
  exists t chip ps, Forall has_features ps /\ ps <> [] /\ Forall (fun p => N.testbit (ar_features (a_report p)) h_neon = true) ps /\
    has_arm true (arm_linux_isa true Other_without t chip ps) Has_neon = false /\
    has_arm true (arm_linux_isa true (Android_without None) t chip ps) Has_neon = true.
Proof.
  exists (Target true false 0 0), no_chip, [with_features 0xB0D7].
  split; [repeat constructor; apply bitmask_all_included; vm_compute; reflexivity|]. split; [discriminate|].
  split; [repeat constructor|]. vm_compute. tauto.
Qed.
Print Assumptions arm_other_libc_refuted.
