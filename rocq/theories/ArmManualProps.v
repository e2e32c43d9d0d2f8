(** Property theorems about ARM cores and their manuals: C52 (parts) and C69 (caches). *)
From Verif Require Import Base TopologySpec ArmUarchModel ArmClusterMidrModel ArmCacheModel ArmCacheSpec ArmManualSpec ArmManualProofs ArmManualCacheProofs ArmMidrSpec.
Open Scope N_scope.

(** ** C52 *)

(** A core is reported exactly for the registers that mean it. *)
Theorem arm_uarch_documented : forall arm32 vfpv4 midr vendor uarch, uarch <> 0 ->
  decode_vendor_uarch arm32 midr vfpv4 = (vendor, uarch) <-> core_meant arm32 vfpv4 midr vendor uarch.
Proof. exact decoded_exactly. Qed.
Print Assumptions arm_uarch_documented.
Example arm_uarch_documented_case :
  core_meant false true 0x410FD092 3 0x00300373 /\ core_meant true false 0x510F00F2 4 0x00400100 /\ core_meant false true 0x534F0010 6 0x00600101.
Proof.
  split; [apply (meant_arm _ _ _ Any 0xD09); [cbn; tauto|exact I|reflexivity]|]. split; [now apply meant_scorpion|].
  apply (meant_exynos _ _ _ 4 1); [cbn; tauto|reflexivity|reflexivity].
Qed.

(** ** C69 *)

(** Whatever the chip: caches are built as the manual of the core says (a core for 32-bit
    programs only runs none for ARMv8).  The second level of the usual numbers of cores is, too,
    except that of a Cortex-A55 in an Exynos. *)
Theorem arm_caches_by_manual : forall b m midr vfpv4 cores chip cluster_id version i d l2 l3, In m manuals ->
  (mn_32 m = true -> b_arm32 b = true /\ b_arch_8a b = false) ->
  snd (decode_vendor_uarch (b_arm32 b) midr vfpv4) = mn_core m ->
  decode_cache b (mn_core m) cores midr chip cluster_id version = Ok (i, d, l2, l3) ->
  built_as (mn_i m) i /\ built_as (mn_d m) d /\
  (usual_cores (mn_core m) cores -> (ch_series chip <> series_exynos \/ (mn_core m <> 0x00300354 /\ mn_core m <> 0x00300355)) ->
   forall l, mn_l2 m = Some l -> built_as l l2).
Proof. exact manual_caches. Qed.
Print Assumptions arm_caches_by_manual.
Example arm_caches_by_manual_case : exists m i d l2 l3 l, In m manuals /\ snd (decode_vendor_uarch false 0x410FD034 true) = mn_core m /\
  decode_cache (Build false false true false) (mn_core m) 4 0x410FD034 (Chipset 8 series_bcm 2837) 0 8 = Ok (i, d, l2, l3) /\ mn_l2 m = Some l /\
  g_size i = 16 * 1024 /\ g_sets i = 128 /\ g_size l2 = 512 * 1024 /\ usual_cores (mn_core m) 4.
Proof.
  exists (manual_of u_cortex_a53). do 5 eexists. split; [vm_compute; tauto|]. split; [reflexivity|]. split; [vm_compute; reflexivity|]. split; [reflexivity|].
  repeat split. vm_compute. tauto.
Qed.
(** The two kinds of Kryo are told apart. *)
Theorem arm_caches_kryo : forall b midr cores chip cluster_id version part kb, In (part, kb) kryo_l2 ->
  design midr = (0x51, part) -> field_of Architecture midr = 0xF ->
  exists i d l2 l3, decode_cache b u_kryo cores midr chip cluster_id version = Ok (i, d, l2, l3) /\ g_size l2 = kb * 1024.
Proof. exact kryo_sizes. Qed.
Print Assumptions arm_caches_kryo.
Example arm_caches_kryo_case : design 0x511F2112 = (0x51, 0x211) /\ field_of Architecture 0x511F2112 = 0xF /\ design 0x512F2051 = (0x51, 0x205) /\
  snd (decode_vendor_uarch false 0x511F2112 true) = u_kryo /\ snd (decode_vendor_uarch false 0x512F2051 true) = u_kryo.
Proof. repeat split. Qed.
Theorem arm_a55_exynos_refuted : exists i d l2 l3, snd (decode_vendor_uarch false 0x410FD050 true) = 0x00300354 /\
  decode_cache (Build false false true true) 0x00300354 4 0x410FD050 (Chipset 3 series_exynos 9810) 0 8 = Ok (i, d, l2, l3) /\
  exists m l, In m manuals /\ mn_core m = 0x00300354 /\ mn_l2 m = Some l /\ ~ built_as l l2.
Proof. exact a55_exynos_refuted. Qed.
Print Assumptions arm_a55_exynos_refuted.

(** The sets of a cache are selected by bits of the address, so that their number is a power
    of two, if that of the cores is. *)
Theorem arm_cache_sets : forall b midr vfpv4 cores chip cluster_id version i d l2 l3,
  let uarch := snd (decode_vendor_uarch (b_arm32 b) midr vfpv4) in
  decode_cache b uarch cores midr chip cluster_id version = Ok (i, d, l2, l3) ->
  (exists k, k < 12 /\ N.of_nat cores = 2 ^ k) -> uarch <> u_thunderx ->
  forall g, In g [i; d; l2; l3] -> g_size g <> 0 -> power_of_two (g_sets g).
Proof. exact sets_powers. Qed.
Print Assumptions arm_cache_sets.
Example arm_cache_sets_case : exists i d l2 l3, snd (decode_vendor_uarch false 0x411FD072 true) = u_cortex_a57 /\
  decode_cache (Build false false true false) u_cortex_a57 8 0x411FD072 (Chipset 0 0 0) 0 8 = Ok (i, d, l2, l3) /\ N.of_nat 8 = 2 ^ 3 /\
  g_sets i = 2 ^ 8 /\ g_sets l2 = 2 ^ 12.
Proof. do 4 eexists. split; [reflexivity|]. split; [vm_compute; reflexivity|]. repeat split. Qed.
(** Three cores of a Cortex-A57 are told to have a second level of 1.5 MB with 1536 sets, and
    the 78 KB of a ThunderX with four ways have 312 sets. *)
Theorem arm_cache_sets_refuted : ~ (forall b midr vfpv4 cores chip cluster_id version i d l2 l3,
  let uarch := snd (decode_vendor_uarch (b_arm32 b) midr vfpv4) in
  decode_cache b uarch cores midr chip cluster_id version = Ok (i, d, l2, l3) -> (0 < cores)%nat ->
  forall g, In g [i; d; l2; l3] -> g_size g <> 0 -> power_of_two (g_sets g)).
Proof. exact three_cores_refuted. Qed.
Print Assumptions arm_cache_sets_refuted.
Theorem arm_thunderx_sets_refuted : exists i d l2 l3, snd (decode_vendor_uarch false 0x431F0A11 true) = u_thunderx /\
  decode_cache (Build false false true false) u_thunderx 1 0x431F0A11 (Chipset 0 0 0) 0 8 = Ok (i, d, l2, l3) /\ g_sets i = 312.
Proof. exact thunderx_sets_refuted. Qed.
Print Assumptions arm_thunderx_sets_refuted.
