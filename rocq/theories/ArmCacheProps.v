(** Property theorems about the decoders of ARM main id registers: C39 about the caches
    they report, C51 about the bound on cache sizes, C52 about the microarchitecture. *)
From Verif Require Import Base TopologySpec ArmMidrModel ArmUarchModel ArmClusterMidrModel ArmCacheModel ArmCacheSpec ArmCacheProofs ArmMidrSpec.
Open Scope N_scope.

(** ** C39 *)

(** Whatever the register, the number of cores, the chip and the version say: the caches
    are well-formed, those of the first level not inclusive, nothing is divided by zero, and there is no third level without a
    second. *)
Theorem arm_caches_sound : forall b midr vfpv4 cores chip cluster_id version,
  let uarch := snd (decode_vendor_uarch (b_arm32 b) midr vfpv4) in
  exists i d l2 l3, decode_cache b uarch cores midr chip cluster_id version = Ok (i, d, l2, l3) /\
    (sound_cache i /\ g_flags i = 0) /\ (sound_cache d /\ g_flags d = 0) /\ sound_or_absent l2 /\ sound_or_absent l3 /\ (sound_cache l3 -> sound_cache l2).
Proof. exact caches_sound. Qed.
Print Assumptions arm_caches_sound.

(** A cluster of a possible size has its caches in growing order, and processors from
    ARMv7 on have a second level. *)
Theorem arm_caches_grow : forall b midr vfpv4 cores chip cluster_id version i d l2 l3,
  let uarch := snd (decode_vendor_uarch (b_arm32 b) midr vfpv4) in
  decode_cache b uarch cores midr chip cluster_id version = Ok (i, d, l2, l3) ->
  0 < N.of_nat cores < 4096 ->
  growing i d l2 l3 /\
  (7 <= version -> uarch <> u_xscale -> uarch <> u_arm11 -> sound_cache l2).
Proof. exact caches_grow. Qed.
Print Assumptions arm_caches_grow.

(** The big cluster of a Snapdragon 845 on Android: Cortex-A75. *)
Definition snapdragon_845 : chipset := Chipset 1 series_snapdragon 845.
Example arm_caches_case :
  snd (decode_vendor_uarch false 0x516F802D true) = u_cortex_a75 /\
  exists i d l2 l3, decode_cache (Build false false true true) u_cortex_a75 4 0x516F802D snapdragon_845 0 8 = Ok (i, d, l2, l3) /\
  g_size i = 64 * 1024 /\ g_sets i = 256 /\ g_size l2 = 256 * 1024 /\ g_sets l2 = 512 /\ g_size l3 = 2 * 1024 * 1024.
Proof. split; [reflexivity|]. do 4 eexists. split; [vm_compute; reflexivity|]. repeat split. Qed.

(** The decoder of caches relies on getting the microarchitecture of the same register: it
    divides by an uninitialised product for an "XScale" with another register. *)
Theorem arm_caches_of_any_uarch_refuted :
  exists b uarch midr cores chip version, decode_cache b uarch cores midr chip 0 version = UB.
Proof.
  exact (ex_intro _ (Build true false false false) (ex_intro _ u_xscale (ex_intro _ 0x410FD034
    (ex_intro _ 1%nat (ex_intro _ snapdragon_845 (ex_intro _ 5 eq_refl)))))).
Qed.
Print Assumptions arm_caches_of_any_uarch_refuted.

(** "Arm Neoverse N1/N2/V1 have a L2 cache of configurable size of 256KB, 512KB, or
    1024KB", of which the code means to take the least except on Ampere Altra; but it takes
    every Neoverse N1 for an Ampere Altra, so 256KB is never reported for one. *)
Theorem arm_neoverse_n1_least_l2_refuted : forall b cores midr chip cluster_id version i d l2 l3,
  design midr = (0x41, 0xD0C) ->
  decode_cache b u_neoverse_n1 cores midr chip cluster_id version = Ok (i, d, l2, l3) -> g_size l2 = 1024 * 1024.
Proof. exact n1_l2. Qed.
Print Assumptions arm_neoverse_n1_least_l2_refuted.
Example arm_neoverse_n1_case :
  design 0x410FD0C0 = (0x41, 0xD0C) /\ snd (decode_vendor_uarch false 0x410FD0C0 true) = u_neoverse_n1 /\
  exists i d l2 l3, decode_cache (Build false false true false) u_neoverse_n1 4 0x410FD0C0 (Chipset 0 0 0) 0 8 = Ok (i, d, l2, l3).
Proof. split; [reflexivity|]. split; [reflexivity|]. do 4 eexists. vm_compute. reflexivity. Qed.

(** ** C51 *)

(** In a cluster of up to four cores no cache is larger than the bound, except on ThunderX
    (and on a Cortex-A5, an ARMv7 core, said to be ARMv8). *)
Theorem arm_max_cache_bounds : forall b midr vfpv4 cores chip cluster_id version i d l2 l3 bound,
  let uarch := snd (decode_vendor_uarch (b_arm32 b) midr vfpv4) in
  decode_cache b uarch cores midr chip cluster_id version = Ok (i, d, l2, l3) ->
  (cores <= 4)%nat -> uarch <> u_thunderx -> (uarch = u_cortex_a5 -> version < 8) ->
  arm_max_cache uarch = Some bound -> all_at_most bound i d l2 l3.
Proof. exact caches_bounded. Qed.
Print Assumptions arm_max_cache_bounds.

Example arm_max_cache_case :
  exists i d l2 l3, decode_cache (Build false false true true) u_cortex_a57 4 0x411FD072 (Chipset 0 0 0) 0 8 = Ok (i, d, l2, l3) /\
  g_size l2 = 2 * 1024 * 1024 /\ arm_max_cache u_cortex_a57 = Some (2 * 1024 * 1024) /\
  snd (decode_vendor_uarch false 0x411FD072 true) = u_cortex_a57.
Proof. do 4 eexists. split; [vm_compute; reflexivity|]. repeat split. Qed.

(** "Returns upper bound on cache size" (include/cpuinfo.h): a ThunderX has a second level
    of 16 MB, eight cores of a Cortex-A57 one of 4 MB, 32 cores of a ThunderX2 one of
    8 MB, and 32 cores of a TaiShan v110 a third one of 32 MB; all of them are larger
    than the bound. *)
Theorem arm_max_cache_bounds_refuted : forall chip cluster_id,
  exceeds_bound (Build false false true false) 0x431F0A11 1 chip cluster_id 8 /\
  exceeds_bound (Build false false true false) 0x411FD072 8 chip cluster_id 8 /\
  exceeds_bound (Build false false true false) 0x431F0AF1 32 chip cluster_id 8 /\
  exceeds_bound (Build false false true false) 0x481FD010 32 chip cluster_id 8.
Proof. exact bound_exceeded. Qed.
Print Assumptions arm_max_cache_bounds_refuted.

(** ** C52 *)

(** Which microarchitecture depends only on the implementer, the part and the variant. *)
Theorem arm_uarch_fields : forall arm32 a b vfpv4, design a = design b -> field_of Variant a = field_of Variant b ->
  decode_vendor_uarch arm32 a vfpv4 = decode_vendor_uarch arm32 b vfpv4.
Proof. exact decode_fields. Qed.
Print Assumptions arm_uarch_fields.

(** The vendor reported is the one that designed the microarchitecture. *)
Theorem arm_uarch_vendor : forall arm32 midr vfpv4, let '(vendor, uarch) := decode_vendor_uarch arm32 midr vfpv4 in
  uarch <> 0 -> designed_by uarch vendor.
Proof. exact vendor_of_uarch. Qed.
Print Assumptions arm_uarch_vendor.

(** A 64-bit program is never told to run on a 32-bit core. *)
Theorem arm_uarch_width : forall arm32 midr vfpv4, let uarch := snd (decode_vendor_uarch arm32 midr vfpv4) in
  (only_32_bit uarch -> arm32 = true) /\ (only_64_bit uarch -> arm32 = false).
Proof. exact uarch_by_width. Qed.
Print Assumptions arm_uarch_width.

(** Cortex-A55 r0 and r1 differ in the variant; revision does not matter; Kryo 385 Gold is
    a design of ARM by Qualcomm; Krait is for 32-bit programs only. *)
Example arm_uarch_case :
  decode_vendor_uarch false 0x410FD050 true = (v_arm, u_cortex_a55r0) /\ decode_vendor_uarch false 0x411FD050 true = (v_arm, u_cortex_a55) /\
  decode_vendor_uarch false 0x411FD053 true = (v_arm, u_cortex_a55) /\
  decode_vendor_uarch false 0x516F802D true = (v_arm, u_cortex_a75) /\ designed_by u_cortex_a75 v_arm /\
  decode_vendor_uarch true 0x510F06F2 true = (v_qualcomm, u_krait) /\ only_32_bit u_krait /\
  decode_vendor_uarch false 0x510F06F2 true = (v_qualcomm, 0).
Proof. repeat split; try (cbv; discriminate); cbv; auto 20. Qed.

(** Cortex-X4, A520 and A720 have values of their own in enum cpuinfo_uarch, but no
    register makes the library report them; theirs are not known. *)
Theorem arm_uarch_all_reported_refuted :
  (forall arm32 midr vfpv4, ~ In (snd (decode_vendor_uarch arm32 midr vfpv4)) [cortex_x4; cortex_a520; cortex_a720]) /\
  (forall arm32 vfpv4 midr, In midr [0x410FD821; 0x410FD801; 0x410FD811] -> decode_vendor_uarch arm32 midr vfpv4 = (v_arm, 0)).
Proof. exact (conj never_reported new_cores_unknown). Qed.
Print Assumptions arm_uarch_all_reported_refuted.
