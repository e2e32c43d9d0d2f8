(** Property theorems: C96, ARM Linux. *)
From Verif Require Import Base Sorting Text TopologySpec ArmClustersModel ArmClusterMidrModel ArmCpuinfoModel ArmCpuinfoSpec ArmLinuxModel ArmLinuxSpec ArmLinuxSample
  ArmOfflineSample ArmMidrSpec ArmCoresSpec ArmCoresSample ArmRenumberSpec ArmRenumberProofs ArmRenumberSample.
Open Scope nat_scope.

(** ** C96 *)

(** Where the kernel tells groups and main id registers, the tables tell the same of every CPU, whatever its number. *)
Theorem arm_linux_renumbered :
  forall arm32 d d' char_signed char_signed' android android' garbage garbage' default default' sorter sorter' calloc_ok calloc_ok'
    fs fs' f max possible present ms version group midr max' possible' present' ms' version' group' midr' o t o' t',
  arm_files_say arm32 default fs max possible present ms -> all_online (arm_usable max possible present) ms version -> decoders_answer d ms ->
  groups_say (arm_usable max possible present) fs group -> midrs_given (arm_usable max possible present) ms group midr ->
  arm_files_say arm32 default' fs' max' possible' present' ms' -> all_online (arm_usable max' possible' present') ms' version' -> decoders_answer d' ms' ->
  groups_say (arm_usable max' possible' present') fs' group' -> midrs_given (arm_usable max' possible' present') ms' group' midr' ->
  sorts (cmp_arm_linux_processor arm32) sorter -> sorts (cmp_arm_linux_processor arm32) sorter' ->
  arm_renumbered f (arm_usable max possible present) group midr (arm_usable max' possible' present') group' midr' ->
  arm_linux_init char_signed arm32 android garbage default sorter calloc_ok d fs = Ok o -> ao_published o = Some t ->
  arm_linux_init char_signed' arm32 android' garbage' default' sorter' calloc_ok' d' fs' = Ok o' -> ao_published o' = Some t' ->
  arm_alike f (arm_usable max possible present) t t'.
Proof. exact arm_linux_renumber. Qed.
Print Assumptions arm_linux_renumbered.

(** Four Cortex-A53 and four Cortex-A57: first the ones and then the others, or in turn. *)
Example arm_linux_renumbered_case :
  let said m := arm_files_say false 64 (arm_machine_files m) 64 (Some (singles (m_cpus m))) (Some (singles (m_cpus m))) (meanings m) /\
    all_online (machine_usable m) (meanings m) 8 /\ groups_say (machine_usable m) (arm_machine_files m) (m_group m) in
  said eight /\ said every_other /\
  midrs_given (machine_usable eight) (meanings eight) (m_group eight) eight_midr /\
  midrs_given (machine_usable every_other) (meanings every_other) (m_group every_other) every_other_midr /\
  arm_renumbered deal (machine_usable eight) (m_group eight) eight_midr (machine_usable every_other) (m_group every_other) every_other_midr /\
  sorts (cmp_arm_linux_processor false) (arm_sort false) /\
  (exists o t, detect eight unknown_chip = Ok o /\ ao_published o = Some t /\ map p_linux_id (at_processors t) = [4; 5; 6; 7; 0; 1; 2; 3]%N) /\
  (exists o t, detect every_other unknown_chip = Ok o /\ ao_published o = Some t /\ map p_linux_id (at_processors t) = [1; 3; 5; 7; 0; 2; 4; 6]%N /\
     map cl_core_count (at_clusters t) = [4; 4]).
Proof.
  cbv zeta. split; [split; [apply machine_files_say, eight_ok|split; [apply machine_all_online; [apply eight_ok|vm_compute; reflexivity]|exact eight_groups]]|].
  split; [split; [apply machine_files_say, every_other_ok|split; [apply machine_all_online; [apply every_other_ok|vm_compute; reflexivity]|exact every_other_groups]]|].
  split; [exact eight_midrs|]. split; [exact every_other_midrs|]. split; [exact dealt|]. split; [apply arm_sort_sorts|].
  split; do 2 eexists; (split; [vm_compute; reflexivity|]; split; [reflexivity|]); [reflexivity|]. split; reflexivity.
Qed.

(** Where the kernel does not tell the groups, they are guessed from the numbers: two clusters of four, or eight of one. *)
Theorem arm_linux_guess_renumbered_refuted : exists m m' midr midr' o o' t t',
  arm_files_say false 64 (no_groups (arm_machine_files m)) 64 (Some (singles (m_cpus m))) (Some (singles (m_cpus m))) (meanings m) /\
  arm_files_say false 64 (no_groups (arm_machine_files m')) 64 (Some (singles (m_cpus m'))) (Some (singles (m_cpus m'))) (meanings m') /\
  all_online (machine_usable m) (meanings m) 8 /\ all_online (machine_usable m') (meanings m') 8 /\
  midrs_given (machine_usable m) (meanings m) (m_group m) midr /\ midrs_given (machine_usable m') (meanings m') (m_group m') midr' /\
  arm_renumbered deal (machine_usable m) (m_group m) midr (machine_usable m') (m_group m') midr' /\
  detect_alone m = Ok o /\ ao_published o = Some t /\ detect_alone m' = Ok o' /\ ao_published o' = Some t' /\
  map cl_core_count (at_clusters t) = [4; 4] /\ map cl_core_count (at_clusters t') = repeat 1 8.
Proof.
  exists eight, every_other, eight_midr, every_other_midr. do 4 eexists.
  split; [apply no_groups_say, eight_ok|]. split; [apply no_groups_say, every_other_ok|].
  split; [apply machine_all_online; [apply eight_ok|vm_compute; reflexivity]|]. split; [apply machine_all_online; [apply every_other_ok|vm_compute; reflexivity]|].
  split; [exact eight_midrs|]. split; [exact every_other_midrs|]. split; [exact dealt|].
  split; [vm_compute; reflexivity|]. split; [reflexivity|]. split; [vm_compute; reflexivity|]. split; [reflexivity|]. split; reflexivity.
Qed.
Print Assumptions arm_linux_guess_renumbered_refuted.
