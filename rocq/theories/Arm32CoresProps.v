(** Property theorems about the cores and caches that 32-bit ARM Linux detection publishes: C94. *)
From Verif Require Import Base Sorting Text TopologySpec ArmClustersModel ArmClusterMidrModel ArmCpuinfoModel ArmCpuinfoSpec ArmLinuxModel ArmLinuxSpec ArmUarchModel ArmCacheModel
  ArmDecodersModel ArmLibraryProofs ArmLinuxSample ArmMidrSpec ArmManualSpec ArmCoresSpec ArmCoresProofs ArmClustersSample Arm32CoresSample.
Open Scope nat_scope.

(** 32-bit, all CPUs online, and the kernel tells their main id registers and siblings: every CPU is listed once, as the core that its
    register means, with caches that the kernel tells or its manual allows, shared as it says. *)
Theorem arm_linux_32_cores_by_manual :
  forall b char_signed android garbage default sorter calloc_ok chipset_of fs max possible present ms version group midr o t,
  b_arm32 b = true -> arm_files_say true default fs max possible present ms -> all_online (arm_usable max possible present) ms version ->
  chipset_answers chipset_of ms -> sorts (cmp_arm_linux_processor true) sorter -> groups_say (arm_usable max possible present) fs group ->
  midrs_given (arm_usable max possible present) ms group midr ->
  arm_linux_init char_signed true android garbage default sorter calloc_ok (library_decoders b chipset_of) fs = Ok o -> ao_published o = Some t ->
  forall cpu vendor core, arm_usable max possible present cpu -> core <> 0%N ->
  meant_to_group true (arm_usable max possible present) ms group midr cpu vendor core ->
  cpu_told_32 (b_arch_8a b) (arm_usable max possible present) ms group (told_exynos (library_decoders b chipset_of) ms t) t cpu vendor core.
Proof. exact cpus_told_32. Qed.
Print Assumptions arm_linux_32_cores_by_manual.

(** Four Cortex-A7 and four Cortex-A15: a second level for each four. *)
Example arm_linux_32_cores_by_manual_case :
  arm_files_say true 64 (arm_machine_files eight_32) 64 (Some (singles (m_cpus eight_32))) (Some (singles (m_cpus eight_32))) (meanings eight_32) /\
  all_online (machine_usable eight_32) (meanings eight_32) 7 /\ sorts (cmp_arm_linux_processor true) (arm_sort true) /\
  groups_say (machine_usable eight_32) (arm_machine_files eight_32) (m_group eight_32) /\
  midrs_given (machine_usable eight_32) (meanings eight_32) (m_group eight_32) eight_32_midr /\
  machine_usable eight_32 1 /\ meant_to_group true (machine_usable eight_32) (meanings eight_32) (m_group eight_32) eight_32_midr 1 3 0x00300207 /\
  meant_to_group true (machine_usable eight_32) (meanings eight_32) (m_group eight_32) eight_32_midr 6 3 0x00300215 /\
  (exists m l, In m manuals /\ mn_core m = 0x00300215%N /\ mn_l2 m = Some l /\ (mn_32 m = true -> b_arch_8a v7 = false)) /\
  ~ tells_l1 (meanings eight_32) 6 false /\
  exists o t, detect_32 eight_32 = Ok o /\ ao_published o = Some t /\
    listed_at t 1 5 /\ listed_at t 6 2 /\ cluster_cores_of t 2 4 /\ usual_cores 0x00300215 4 /\
    at_l2_of t = map Some [0; 0; 0; 0; 1; 1; 1; 1] /\ map (fun c => g_size (ca_geometry c)) (at_l2 t) = [2097152; 524288]%N /\
    map (fun c => g_line_size (ca_geometry c)) (at_l1i t) = [64; 64; 64; 64; 32; 32; 32; 32]%N.
Proof.
  split; [apply machine_files_say, eight_32_ok|]. split; [apply machine_all_online; [apply eight_32_ok|vm_compute; reflexivity]|].
  split; [apply arm_sort_sorts|]. split; [exact eight_32_groups|]. split; [exact eight_32_midrs|]. split; [apply machine_usable_iff; [repeat constructor|cbn; tauto]|].
  split; [intros v other _ _ _; apply (meant_arm _ _ _ Only_32 0xC07); [cbn; tauto|exact eq_refl|reflexivity]|].
  split; [intros v other _ _ _; apply (meant_arm _ _ _ Only_32 0xC0F); [cbn; tauto|exact eq_refl|reflexivity]|].
  split; [do 2 eexists; split; [do 4 right; left; reflexivity|split; [reflexivity|split; [reflexivity|reflexivity]]]|].
  split; [intros H; destruct (H CacheSize) as (n & X); vm_compute in X; repeat destruct X as [X|X]; try discriminate; destruct X|].
  do 2 eexists. split; [vm_compute; reflexivity|]. split; [reflexivity|]. split; [eexists; split; reflexivity|]. split; [eexists; split; reflexivity|].
  split; [do 3 eexists; repeat split; reflexivity|]. split; [vm_compute; tauto|]. repeat split; vm_compute; reflexivity.
Qed.

(** Whatever the cores are: a first-level cache of which the kernel tells size, ways, line length and sets is published with the last
    numbers told; one of which it does not tell all four is published for its processor alone. *)
Theorem arm_linux_told_first_level :
  forall char_signed android garbage default sorter calloc_ok d fs max possible present ms version o t,
  arm_files_say true default fs max possible present ms -> all_online (arm_usable max possible present) ms version ->
  decoders_answer d ms -> sorts (cmp_arm_linux_processor true) sorter ->
  arm_linux_init char_signed true android garbage default sorter calloc_ok d fs = Ok o -> ao_published o = Some t ->
  forall cpu i (data : bool), listed_at t cpu i ->
  (tells_l1 ms cpu data -> nth_error (if data then at_l1d t else at_l1i t) i = Some (Cache (told_l1 ms cpu data) 0 0)) /\
  (~ tells_l1 ms cpu data -> exists g, nth_error (if data then at_l1d t else at_l1i t) i = Some (Cache g i 1)).
Proof. exact first_level_told. Qed.
Print Assumptions arm_linux_told_first_level.

(** A kernel that tells of the instruction cache, but not of the data cache. *)
Example arm_linux_told_first_level_case :
  arm_files_say true 64 old_kernel_files 64 (Some (singles [0])) (Some (singles [0])) old_kernel_meanings /\
  tells_l1 old_kernel_meanings 0 false /\ ~ tells_l1 old_kernel_meanings 0 true /\ told_l1 old_kernel_meanings 0 false = Geometry 16384 4 128 1 32 0 /\
  exists o t, arm_linux_init true true false junk 64 (arm_sort true) (fun _ => true) (library_decoders gnu32 (fun _ _ _ => Ok unknown_chip)) old_kernel_files = Ok o /\
    ao_published o = Some t /\ listed_at t 0 0 /\ at_l1i t = [Cache (Geometry 16384 4 128 1 32 0) 0 0] /\ map ca_processor_count (at_l1d t) = [1].
Proof.
  split; [exact old_kernel_says|]. split; [intros []; eexists; vm_compute; eauto 20|].
  split; [intros H; destruct (H CacheSize) as (n & X); vm_compute in X; repeat destruct X as [X|X]; try discriminate; destruct X|]. split; [vm_compute; reflexivity|].
  do 2 eexists. split; [vm_compute; reflexivity|]. split; [reflexivity|]. split; [eexists; split; reflexivity|]. split; reflexivity.
Qed.
