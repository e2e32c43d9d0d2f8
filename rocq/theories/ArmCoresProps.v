(** Property theorems about the cores and caches that ARM Linux detection publishes for known main id registers: C90. *)
From Verif Require Import Base Sorting Text TopologySpec ArmClustersModel ArmClusterMidrModel ArmCpuinfoModel ArmCpuinfoSpec ArmLinuxModel ArmLinuxSpec ArmUarchModel ArmCacheModel
  ArmDecodersModel ArmLibraryProofs ArmLinuxSample ArmMidrSpec ArmManualSpec ArmCoresSpec ArmCoresProofs ArmCoresSample.
Open Scope nat_scope.

(** 64-bit, all CPUs online, and the kernel tells their main id registers and siblings: every CPU is listed once, as the core that its
    register means, with caches that its manual allows, shared as it says. *)
Theorem arm_linux_cores_by_manual :
  forall b char_signed android garbage default sorter calloc_ok chipset_of fs max possible present ms version group midr o t,
  b_arm32 b = false -> arm_files_say false default fs max possible present ms -> all_online (arm_usable max possible present) ms version ->
  chipset_answers chipset_of ms -> sorts (cmp_arm_linux_processor false) sorter -> groups_say (arm_usable max possible present) fs group ->
  midrs_given (arm_usable max possible present) ms group midr ->
  arm_linux_init char_signed false android garbage default sorter calloc_ok (library_decoders b chipset_of) fs = Ok o -> ao_published o = Some t ->
  forall cpu v vendor core, arm_usable max possible present cpu -> core <> 0%N -> core_meant false v (midr cpu) vendor core ->
  cpu_told (arm_usable max possible present) group (told_exynos (library_decoders b chipset_of) ms t) t cpu vendor core.
Proof. exact cpus_told. Qed.
Print Assumptions arm_linux_cores_by_manual.

(** Four Cortex-A53 and four Cortex-A57: a second level for each four. *)
Example arm_linux_cores_by_manual_case :
  arm_files_say false 64 (arm_machine_files eight) 64 (Some (singles (m_cpus eight))) (Some (singles (m_cpus eight))) (meanings eight) /\
  all_online (machine_usable eight) (meanings eight) 8 /\ sorts (cmp_arm_linux_processor false) (arm_sort false) /\
  groups_say (machine_usable eight) (arm_machine_files eight) (m_group eight) /\
  midrs_given (machine_usable eight) (meanings eight) (m_group eight) eight_midr /\
  machine_usable eight 1 /\ core_meant false true (eight_midr 1) 3 0x00300353 /\ core_meant false true (eight_midr 6) 3 0x00300357 /\
  (exists m l, In m manuals /\ mn_core m = 0x00300357%N /\ mn_l2 m = Some l) /\
  exists o t, detect eight unknown_chip = Ok o /\ ao_published o = Some t /\
    listed_at t 1 5 /\ listed_at t 6 2 /\ cluster_cores_of t 2 4 /\ usual_cores 0x00300357 4 /\
    at_l2_of t = map Some [0; 0; 0; 0; 1; 1; 1; 1] /\ map (fun c => g_size (ca_geometry c)) (at_l2 t) = [2097152; 262144]%N /\
    map (fun c => g_size (ca_geometry c)) (at_l1i t) = [49152; 49152; 49152; 49152; 16384; 16384; 16384; 16384]%N.
Proof.
  split; [apply machine_files_say, eight_ok|]. split; [apply machine_all_online; [apply eight_ok|vm_compute; reflexivity]|].
  split; [apply arm_sort_sorts|]. split; [exact eight_groups|]. split; [exact eight_midrs|]. split; [apply machine_usable_iff; [repeat constructor|cbn; tauto]|].
  split; [apply (meant_arm _ _ _ Any 0xD03); [cbn; tauto|exact I|reflexivity]|]. split; [apply (meant_arm _ _ _ Any 0xD07); [cbn; tauto|exact I|reflexivity]|].
  split; [do 2 eexists; split; [do 10 right; left; reflexivity|split; reflexivity]|].
  do 2 eexists. split; [vm_compute; reflexivity|]. split; [reflexivity|]. split; [eexists; split; reflexivity|]. split; [eexists; split; reflexivity|].
  split; [do 3 eexists; repeat split; reflexivity|]. split; [vm_compute; tauto|]. repeat split; vm_compute; reflexivity.
Qed.

(** Newer cores have second levels of their own, too: a Cortex-A78 one of 256 or 512 KB.  But one of 1 MB is reported for each four. *)
Theorem arm_linux_newer_cores_refuted : exists m midr o t x,
  arm_files_say false 64 (arm_machine_files m) 64 (Some (singles (m_cpus m))) (Some (singles (m_cpus m))) (meanings m) /\
  all_online (machine_usable m) (meanings m) 8 /\ groups_say (machine_usable m) (arm_machine_files m) (m_group m) /\
  midrs_given (machine_usable m) (meanings m) (m_group m) midr /\ (forall cpu, core_meant false true (midr cpu) 3 0x00300378) /\
  detect m unknown_chip = Ok o /\ ao_published o = Some t /\ length (at_processors t) = 4 /\
  at_l2_of t = repeat (Some 0) 4 /\ at_l2 t = [x] /\ ca_processor_count x = 4 /\ g_size (ca_geometry x) = (1024 * 1024)%N.
Proof.
  exists four_a78, (fun _ => 0x411FD410%N). do 3 eexists. split; [apply machine_files_say, four_a78_ok|].
  split; [apply machine_all_online; [apply four_a78_ok|vm_compute; reflexivity]|]. split; [exact four_a78_groups|]. split; [exact four_a78_midrs|].
  split; [intros cpu; apply (meant_arm _ _ _ Any 0xD41); [cbn; tauto|exact I|reflexivity]|].
  split; [vm_compute; reflexivity|]. split; [reflexivity|]. repeat split; vm_compute; reflexivity.
Qed.
Print Assumptions arm_linux_newer_cores_refuted.

(** Those of the Neoverse cores are their own as well, but no third level is known for them: one second-level cache is reported for
    all CPUs of a group. *)
Theorem arm_linux_neoverse_l2_shared :
  forall b char_signed android garbage default sorter calloc_ok chipset_of fs max possible present ms version group midr o t,
  b_arm32 b = false -> arm_files_say false default fs max possible present ms -> all_online (arm_usable max possible present) ms version ->
  chipset_answers chipset_of ms -> sorts (cmp_arm_linux_processor false) sorter -> groups_say (arm_usable max possible present) fs group ->
  midrs_given (arm_usable max possible present) ms group midr ->
  arm_linux_init char_signed false android garbage default sorter calloc_ok (library_decoders b chipset_of) fs = Ok o -> ao_published o = Some t ->
  forall cpu other v vendor core i j, core_meant false v (midr cpu) vendor core -> In core neoverse -> group cpu = group other ->
  listed_at t cpu i -> listed_at t other j ->
  exists k, nth_error (at_l2_of t) i = Some (Some k) /\ nth_error (at_l2_of t) j = Some (Some k).
Proof. exact neoverse_cpus_share. Qed.
Print Assumptions arm_linux_neoverse_l2_shared.
Example arm_linux_neoverse_case : core_meant false true 0x413FD0C1 3 0x00300400 /\ In 0x00300400%N neoverse.
Proof. split; [apply (meant_arm _ _ _ Any 0xD0C); [cbn; tauto|exact I|reflexivity]|cbn; tauto]. Qed.
