(** Property theorems about the chip that ARM Linux and Android detection report and use: C70 and C71. *)
From Verif Require Import Base Sorting Text LinuxTextModel LinuxTextSpec TopologySpec X86LinuxSpec RiscvSample ArmClustersModel ArmClusterMidrModel
  ArmCpuinfoModel ArmCpuinfoSpec ArmCpuinfoSample ArmLinuxModel ArmLinuxSpec ArmOrderProofs ArmUarchModel ArmCacheModel ArmDecodersModel ArmLibraryProofs
  ArmClustersSample ArmLinuxSample.
From Verif Require Import ArmChipsetModel ArmChipsetSpec ArmChipsetNameSpec ArmChipsetFixupSpec ArmChipsetAndroidSpec ArmPackageModel ArmPackageSpec ArmPackageProofs
  ArmPackageSample ArmPackageCaseProofs.
Open Scope nat_scope.

(** ** C70: GNU/Linux *)

(** The package has the name of the chip that the last Hardware and Revision lines mean for the
    number of processors reported. *)
Theorem arm_linux_package : forall char_signed b garbage default sorter calloc_ok fs max possible present ms version,
  arm_files_say (b_arm32 b) default fs max possible present ms ->
  all_online (arm_usable max possible present) ms version ->
  sorts (cmp_arm_linux_processor (b_arm32 b)) sorter -> plain_lines ms -> revision_if_needed (b_arm32 b) ms -> forall o t,
  arm_linux_init char_signed (b_arm32 b) (b_android b) garbage default sorter calloc_ok
    (library_decoders b (chipset_by (linux_decoder (b_arm32 b)))) fs = Ok o -> ao_published o = Some t ->
  exists c name, arm_package_name char_signed (b_arm32 b) default calloc_ok (linux_decoder (b_arm32 b)) fs = Ok (Some name) /\
    linux_tells (b_arm32 b) (N.of_nat (length (at_processors t))) ms c /\ called c name /\ length name <= 47.
Proof. exact linux_package. Qed.
Print Assumptions arm_linux_package.
(** There is only one such chip. *)
Theorem arm_linux_package_unique : forall arm32 cores ms c c', plain_lines ms -> linux_tells arm32 cores ms c -> linux_tells arm32 cores ms c' -> c = c'.
Proof. exact linux_tells_unique. Qed.
Print Assumptions arm_linux_package_unique.
(** The same chip decides the caches and the main id registers ([arm_reports] in ArmLinuxProps). *)
Theorem arm_linux_chip_used : forall b ms n chip, plain_lines ms -> revision_if_needed (b_arm32 b) ms ->
  decoders_answer (library_decoders b (chipset_by (linux_decoder (b_arm32 b)))) ms /\
  (chipset_from (library_decoders b (chipset_by (linux_decoder (b_arm32 b)))) ms n chip ->
   exists c, linux_tells (b_arm32 b) (N.of_nat n) ms c /\ chip = seen c).
Proof. exact linux_used. Qed.
Print Assumptions arm_linux_chip_used.

Example arm_linux_package_case :
  arm_files_say false 64 (with_lines pi3 pi3_lines) 64 (Some (singles (m_cpus pi3))) (Some (singles (m_cpus pi3))) (meanings pi3 ++ pi3_meanings) /\
  all_online (machine_usable pi3) (meanings pi3 ++ pi3_meanings) 8 /\ plain_lines (meanings pi3 ++ pi3_meanings) /\
  revision_if_needed false (meanings pi3 ++ pi3_meanings) /\
  (exists o t, arm_linux_init true false false junk 64 (arm_sort false) (fun _ => true)
      (library_decoders gnu64 (chipset_by (linux_decoder false))) (with_lines pi3 pi3_lines) = Ok o /\ ao_published o = Some t) /\
  arm_package_name true false 64 (fun _ => true) (linux_decoder false) (with_lines pi3 pi3_lines) = Ok (Some (text "Broadcom BCM2837")).
Proof. exact pi3_case. Qed.

(** Without a Revision line the decoder of a Broadcom chip reads memory that was never written. *)
Theorem arm_linux_no_revision_refuted :
  ~ (forall char_signed b garbage default sorter calloc_ok fs max possible present ms version group,
       arm_files_say (b_arm32 b) default fs max possible present ms -> all_online (arm_usable max possible present) ms version ->
       sorts (cmp_arm_linux_processor (b_arm32 b)) sorter -> plain_lines ms -> groups_say (arm_usable max possible present) fs group ->
       exists o, arm_linux_init char_signed (b_arm32 b) (b_android b) garbage default sorter calloc_ok
         (library_decoders b (chipset_by (linux_decoder (b_arm32 b)))) fs = Ok o).
Proof. exact no_revision_refuted. Qed.
Print Assumptions arm_linux_no_revision_refuted.

(** ** C71: Android *)

(** The package has the name of the chip that the last Hardware line and the system properties
    decide on for the number of processors reported. *)
Theorem arm_android_package : forall char_signed b garbage default sorter calloc_ok get fs max possible present ms version,
  arm_files_say (b_arm32 b) default fs max possible present ms ->
  all_online (arm_usable max possible present) ms version ->
  sorts (cmp_arm_linux_processor (b_arm32 b)) sorter -> plain_device get ms -> forall o t,
  arm_linux_init char_signed (b_arm32 b) (b_android b) garbage default sorter calloc_ok
    (library_decoders b (chipset_by (android_decoder (b_arm32 b) get))) fs = Ok o -> ao_published o = Some t ->
  exists c name, arm_package_name char_signed (b_arm32 b) default calloc_ok (android_decoder (b_arm32 b) get) fs = Ok (Some name) /\
    android_tells (b_arm32 b) (N.of_nat (length (at_processors t))) get ms c /\ called c name /\ length name <= 47.
Proof. exact android_package. Qed.
Print Assumptions arm_android_package.
Theorem arm_android_chip_used : forall b get ms n chip, plain_device get ms ->
  decoders_answer (library_decoders b (chipset_by (android_decoder (b_arm32 b) get))) ms /\
  (chipset_from (library_decoders b (chipset_by (android_decoder (b_arm32 b) get))) ms n chip ->
   exists c, android_tells (b_arm32 b) (N.of_nat n) get ms c /\ chip = seen c).
Proof. exact android_used. Qed.
Print Assumptions arm_android_chip_used.

Example arm_android_package_case :
  arm_files_say false 64 (with_lines big_little device_lines) 64 (Some (singles (m_cpus big_little))) (Some (singles (m_cpus big_little)))
    (meanings big_little ++ device_meanings) /\
  all_online (machine_usable big_little) (meanings big_little ++ device_meanings) 8 /\ plain_device device_get (meanings big_little ++ device_meanings) /\
  (exists o t, arm_linux_init true false true junk 64 (arm_sort false) (fun _ => true)
      (library_decoders android64 (chipset_by (android_decoder false device_get))) (with_lines big_little device_lines) = Ok o /\ ao_published o = Some t) /\
  arm_package_name true false 64 (fun _ => true) (android_decoder false device_get) (with_lines big_little device_lines) =
    Ok (Some (text "Qualcomm Snapdragon 710")).
Proof. exact device_case. Qed.
